(** Property theorems about variables declared extern: C69. *)
From Coq Require Import ZArith List String Bool Lia.
From Verif Require Import CInt Tree SpecResolver State Eval StepsFacts SpecRun SpecTypes SpecTypesFacts SpecNames SpecVars SpecStatic SpecEnum SpecExtern
  RunFacts NameFacts ExprFacts VarFacts EnumFacts ExternFacts TestEnv TestRun.
Import ListNotations.
Local Open Scope string_scope.
Local Open Scope Z_scope.
Local Open Scope list_scope.

(** [extern specs x, *y, ...;] for names the scope does not declare and the dynamic linker knows: each name means a variable of its type at the
    address of the symbol; nothing is allocated or written. *)
Theorem C69_extern : forall E l specs t ds s c cs,
  zfind l (statics s) = None -> base_type s specs t -> In (T_SPEC T_EXTERN) specs -> ~ In (T_SPEC T_TYPEDEF) specs ->
  stack s = c :: cs -> NoDup (map snd ds) -> (forall x, In x (map snd ds) -> ~ In x (map fst (c_idmap c)) /\ e_dlsym E x <> 0) ->
  exists s', runs E s (T_DECL l (CHAIN_HEAD specs) (CHAIN_HEAD (map (fun d => stars (fst d) (T_IDENTIFIER (snd d))) ds)))
      (Ok (last (map (fun d => T_IDENTIFIER (snd d)) ds) NULL) s') /\ names_added E s (extern_names E t ds) s' /\
    forall n x, In (n, x) ds -> means s' x (T_LIVE_VAR (pointer_to n t) (e_dlsym E x) false 0).
Proof. exact extern_declaration. Qed.
Print Assumptions C69_extern.

(** A name the linker does not know stops the program with an error; nothing is declared. *)
Theorem C69_unknown : forall E l specs t n x s c cs,
  zfind l (statics s) = None -> base_type s specs t -> In (T_SPEC T_EXTERN) specs -> ~ In (T_SPEC T_TYPEDEF) specs ->
  stack s = c :: cs -> ~ In x (map fst (c_idmap c)) -> e_dlsym E x = 0 ->
  exists s', runs E s (T_DECL l (CHAIN_HEAD specs) (CHAIN_HEAD [stars n (T_IDENTIFIER x)])) (Die s') /\ only_gc E s s'.
Proof. exact extern_dies. Qed.
Print Assumptions C69_unknown.

(** Declared again, with a number or pointer type, in the same scope (also if the first declaration was not extern): nothing happens if the
    type is the same or both are pointers; otherwise the program stops with an error. *)
Theorem C69_again : forall E l specs t n x s c cs ty a arr m,
  zfind l (statics s) = None -> base_type s specs t -> In (T_SPEC T_EXTERN) specs -> ~ In (T_SPEC T_TYPEDEF) specs ->
  stack s = c :: cs -> resolve_id x (c_idmap c) = T_LIVE_VAR ty a arr m -> scalar t -> scalar ty ->
  let d := T_DECL l (CHAIN_HEAD specs) (CHAIN_HEAD [stars n (T_IDENTIFIER x)]) in
  exists s', only_gc E s s' /\ (same_kind ty (pointer_to n t) -> runs E s d (Ok (T_IDENTIFIER x) s')) /\ (~ same_kind ty (pointer_to n t) -> runs E s d (Die s')).
Proof. exact extern_redeclared. Qed.
Print Assumptions C69_again.

(** [extern int *puts, strcpy;], then [extern char *puts;], [extern unsigned strcpy;] and [extern int nothing;]. *)
Definition ext_int : list tree := map T_SPEC [T_EXTERN; T_INT_TS].
Definition two : list (nat * string) := [(1%nat, "puts"); (0%nat, "strcpy")].
Definition externs : state := after [T_DECL 1 (CHAIN_HEAD ext_int) (CHAIN_HEAD (map (fun d => stars (fst d) (T_IDENTIFIER (snd d))) two))].

(** So it is false that a variable has the type of its last accepted declaration: after [extern int *puts; extern char *puts;] it is an
    [int *]. *)
Theorem C69_last_type_refuted : exists E s l specs t x s' a, reachable E s /\ base_type s specs t /\ In (T_SPEC T_EXTERN) specs /\
  runs E s (T_DECL l (CHAIN_HEAD specs) (CHAIN_HEAD [T_POINTER (T_IDENTIFIER x)])) (Ok (T_IDENTIFIER x) s') /\
  means s' x (T_LIVE_VAR (D_T_PTR (D_T D_T_INT)) a false 0) /\ D_T_PTR t <> D_T_PTR (D_T D_T_INT).
Proof.
  set (d := T_DECL 2 (CHAIN_HEAD (map T_SPEC [T_EXTERN; T_CHAR_TS])) (CHAIN_HEAD [T_POINTER (T_IDENTIFIER "puts")])).
  assert (Hl : lookup (final_state (outcome externs d)) "puts" = T_LIVE_VAR (D_T_PTR (D_T D_T_INT)) 7000 false 0) by (vm_compute; reflexivity).
  assert (Hv : value (outcome externs d) = Some (T_IDENTIFIER "puts")) by (vm_compute; reflexivity).
  exists env0, externs, 2, (map T_SPEC [T_EXTERN; T_CHAR_TS]), (D_T D_T_CHAR), "puts", (final_state (outcome externs d)), 7000.
  split; [apply reachable_after|].
  split; [apply base_words, SpecTypesFacts.resolve_type; reflexivity|]. split; [left; reflexivity|].
  split; [exact (outcome_ok externs d _ Hv)|].
  split; [apply means_lookup; [discriminate|exact Hl]|discriminate].
Qed.
Print Assumptions C69_last_type_refuted.

Example C69_nontrivial : exists c cs c' cs',
  zfind 1 (statics s0) = None /\ base_type s0 ext_int (D_T D_T_INT) /\ In (T_SPEC T_EXTERN) ext_int /\ ~ In (T_SPEC T_TYPEDEF) ext_int /\
  stack s0 = c :: cs /\ NoDup (map snd two) /\ (forall x, In x (map snd two) -> ~ In x (map fst (c_idmap c)) /\ e_dlsym env0 x <> 0) /\
  e_dlsym env0 "nothing" = 0 /\ ~ In "nothing" (map fst (c_idmap c)) /\
  stack externs = c' :: cs' /\ resolve_id "strcpy" (c_idmap c') = T_LIVE_VAR (D_T D_T_INT) 7001 false 0 /\
  ~ same_kind (D_T D_T_INT) (D_T D_T_UINT) /\
  kind_of (outcome externs (T_DECL 3 (specs [T_EXTERN; T_UNSIGNED_TS]) (CHAIN_HEAD [id "strcpy"]))) = KDie /\
  kind_of (outcome externs (T_DECL 3 (specs [T_EXTERN; T_INT_TS]) (CHAIN_HEAD [id "strcpy"]))) = KOk /\
  kind_of (outcome externs (T_DECL 3 (specs [T_EXTERN; T_INT_TS]) (CHAIN_HEAD [id "nothing"]))) = KDie.
Proof.
  assert (Hl : match stack s0 with c :: _ => map fst (c_idmap c) | [] => [""] end = []) by (vm_compute; reflexivity).
  assert (Hm : match stack externs with c :: _ => resolve_id "strcpy" (c_idmap c) | [] => NULL end = T_LIVE_VAR (D_T D_T_INT) 7001 false 0) by (vm_compute; reflexivity).
  assert (Hk : kind_of (outcome externs (T_DECL 3 (specs [T_EXTERN; T_UNSIGNED_TS]) (CHAIN_HEAD [id "strcpy"]))) = KDie /\
    kind_of (outcome externs (T_DECL 3 (specs [T_EXTERN; T_INT_TS]) (CHAIN_HEAD [id "strcpy"]))) = KOk /\
    kind_of (outcome externs (T_DECL 3 (specs [T_EXTERN; T_INT_TS]) (CHAIN_HEAD [id "nothing"]))) = KDie) by (repeat split; vm_compute; reflexivity).
  assert (Hst : zfind 1 (statics s0) = None) by (vm_compute; reflexivity).
  destruct (stack s0) as [|c cs]; [discriminate Hl|]. destruct (stack externs) as [|c' cs']; [discriminate Hm|]. exists c, cs, c', cs'.
  split; [exact Hst|]. split; [apply base_words, SpecTypesFacts.resolve_type; reflexivity|]. split; [cbn; tauto|]. split; [cbn; intuition discriminate|].
  split; [reflexivity|]. split; [repeat constructor; cbn; intuition discriminate|]. rewrite Hl.
  split; [intros x [<-|[<-|[]]]; (split; [intros []|discriminate])|]. split; [reflexivity|]. split; [intros []|]. split; [reflexivity|]. split; [exact Hm|].
  split; [intros [H|(p & q & H & _)]; discriminate H|exact Hk].
Qed.
