(** C28: declaration specifiers. *)
From Coq Require Import ZArith List String Permutation.
From Verif Require Import CInt Tree SpecResolver SpecTypes SpecTypesFacts.
Import ListNotations.
Local Open Scope string_scope.

(** A list of specifiers resolves to a type exactly when it is, up to order and storage
    classes, one of the C combinations, and then to the C type. *)
Theorem C28_resolves : forall specs t,
  resolve_decl_specs_to_type (CHAIN_HEAD (map T_SPEC specs)) = SpecOk t <-> names_type specs t.
Proof. exact resolve_type. Qed.
Print Assumptions C28_resolves.

(** Every other list stops with an error. *)
Theorem C28_rejects : forall specs, (forall t, ~ names_type specs t) ->
  resolve_decl_specs_to_type (CHAIN_HEAD (map T_SPEC specs)) = SpecDie.
Proof. exact resolve_no_type. Qed.
Print Assumptions C28_rejects.

(** The order does not matter. *)
Theorem C28_order : forall specs specs', Permutation specs specs' ->
  resolve_decl_specs_to_type (CHAIN_HEAD (map T_SPEC specs)) =
  resolve_decl_specs_to_type (CHAIN_HEAD (map T_SPEC specs')).
Proof. exact resolve_perm. Qed.
Print Assumptions C28_order.

(** The first typedef name, struct, union or enum decides, unless the specifiers before it are
    already in error; those after it are ignored. *)
Theorem C28_self_typed : forall specs i post, self_typed i ->
  (sane_prefix specs -> resolve_decl_specs_to_type (CHAIN_HEAD (map T_SPEC specs ++ i :: post)) = SpecOk i) /\
  (~ sane_prefix specs -> resolve_decl_specs_to_type (CHAIN_HEAD (map T_SPEC specs ++ i :: post)) = SpecDie).
Proof. exact resolve_self. Qed.
Print Assumptions C28_self_typed.

Example C28_nontrivial :
  names_type [T_LONG_TS; T_STATIC; T_UNSIGNED_TS; T_INT_TS; T_LONG_TS] (D_T D_T_ULONGLONG) /\
  (forall t, ~ names_type [T_LONG_TS; T_LONG_TS; T_LONG_TS] t) /\
  (forall t, ~ names_type [T_CONST; T_INT_TS] t) /\
  sane_prefix [T_EXTERN; T_LONG_TS; T_INT_TS; T_LONG_TS] /\ ~ sane_prefix [T_INT_TS; T_INT_TS] /\
  self_typed (T_IDENTIFIER "size_t").
Proof.
  split.
  { exists [T_UNSIGNED_TS; T_LONG_TS; T_LONG_TS; T_INT_TS]. split; [constructor|]. cbn.
    apply (Permutation_trans (l' := [T_UNSIGNED_TS; T_LONG_TS; T_INT_TS; T_LONG_TS])); [apply perm_swap|].
    do 2 apply perm_skip. apply perm_swap. }
  split; [intros t H; apply C28_resolves in H; vm_compute in H; discriminate|].
  split; [intros t H; apply C28_resolves in H; vm_compute in H; discriminate|].
  split.
  { split; [cbn; intuition|]. exists [T_LONG_TS; T_LONG_TS; T_INT_TS]. split; [cbn; apply perm_skip, perm_swap|].
    right. exists [T_LONG_TS; T_INT_TS]. split; [reflexivity|]. repeat constructor; cbn; intuition congruence. }
  split; [|constructor].
  intros H. apply within_sane in H. specialize (H T_INT_TS). vm_compute in H. apply PeanoNat.Nat.le_ngt in H. apply H. constructor.
Qed.
