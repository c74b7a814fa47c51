(** Property theorems about the builtin functions: C74. *)
From Coq Require Import ZArith List String Bool Lia.
From Verif Require Import CInt Tree State Eval StepsFacts SpecRun SpecNames SpecVars SpecPtr SpecExt SpecCScript SpecBuiltin
  RunFacts NameFacts PtrFacts ExtFacts ExprFacts BuiltinFacts TestEnv TestRun PropsCScript.
Import ListNotations.
Local Open Scope string_scope.
Local Open Scope Z_scope.
Local Open Scope list_scope.

(** ** C74: the builtin functions *)

(** From the start three names are known, and no others. *)
Theorem C74_names : forall E s x v, started E s -> (means s x v <-> In (x, v) known_names).
Proof. exact started_names. Qed.
Print Assumptions C74_names.

(** A call of a builtin function with at most three arguments is a call of the function of the C library with the first two, whatever
    comes of it. *)
Theorem C74_same : forall E b f ts s s1, runs E s f (Ok (T_BUILTIN b) s1) -> (List.length ts <= 3)%nat ->
  exists s2, only_gc E s1 s2 /\
    forall r, runs E s (T_FN_CALL f (args_tree ts)) r <-> runs E s2 (T_FN_CALL (T_IDENTIFIER (library_function b)) (args_tree (firstn 2 ts))) r.
Proof.
  intros E b f ts s s1 Hf Hl. exists (after_tick E s1). split; [apply gc_only_tick|].
  exact (builtin_call E b f ts s s1 Hf Hl).
Qed.
Print Assumptions C74_same.

(** So the third argument, the size of the destination, is not looked at: it is not evaluated and any other would do as well. *)
Theorem C74_unchecked : forall E b f d src n n' s s1, runs E s f (Ok (T_BUILTIN b) s1) ->
  forall r, runs E s (T_FN_CALL f (args_tree [d; src; n])) r <-> runs E s (T_FN_CALL f (args_tree [d; src; n'])) r.
Proof.
  intros E b f d src n n' s s1 Hf r.
  rewrite (builtin_call E b f [d; src; n] s s1 Hf ltac:(cbn; lia) r), (builtin_call E b f [d; src; n'] s s1 Hf ltac:(cbn; lia) r). reflexivity.
Qed.
Print Assumptions C74_unchecked.

(** When the function of the library has been declared, it is called exactly once, with the values of the first two arguments. *)
Theorem C74_calls : forall E b f ps rt d src n vs p s s1 bits, reachable E s ->
  runs E s f (Ok (T_BUILTIN b) s1) ->
  means s1 (library_function b) (T_FN (T_IDENTIFIER (library_function b)) (args_tree ps) rt NULL) ->
  ellipsis ps p -> result_type rt -> Forall2 (simple E s1) [d; src] vs ->
  returns_at_once E s1 (e_dlsym E (library_function b)) bits ->
  out_of_memory E s (T_FN_CALL f (args_tree [d; src; n])) 16 \/
  exists s2 args v s', only_gc E s1 s2 /\ runs E s (T_FN_CALL f (args_tree [d; src; n])) (Ok v s') /\ passed_as E s1 p vs args /\
    calls_since s1 s' [EvCall (e_dlsym E (library_function b)) args] /\ result E s2 s' bits rt v /\ kept E s1 s'.
Proof.
  intros E b f ps rt d src n vs p s s1 bits Hr Hf. eapply library_called; [|exact Hf].
  apply (reachable_nonempty E). eapply reachable_runs; eauto.
Qed.
Print Assumptions C74_calls.

(** When it has not, the program exits with an error, although the name of the builtin is known. *)
Theorem C74_undeclared : forall E b f ts s s1, runs E s f (Ok (T_BUILTIN b) s1) -> (List.length ts <= 3)%nat ->
  (forall v, ~ means s1 (library_function b) v) ->
  exists s2, only_gc E s1 s2 /\ forall r, runs E s (T_FN_CALL f (args_tree ts)) r <-> r = Die s2.
Proof.
  intros E b f ts s s1 Hf Hl Hm. exists (after_tick E s1). split; [apply gc_only_tick|].
  intros r. rewrite (builtin_call E b f ts s s1 Hf Hl r). apply undeclared_call.
  intros v Hv. apply (Hm v). assert (N : v <> NULL) by (destruct Hv as (? & ? & ? & _ & _ & N & _); exact N).
  apply means_lookup; [exact N|]. apply means_lookup in Hv; [|exact N]. exact Hv.
Qed.
Print Assumptions C74_undeclared.

(** [int strcpy(char c, ...);] (the library of the examples returns 7) and [__builtin___strcpy_chk("a", "b", nothing)]: the name
    [nothing] has not been declared, which does not matter. *)
Definition with_strcpy : state := after [T_DECL (-2) (specs [T_INT_TS]) (CHAIN_HEAD [T_FN (id "strcpy") (CHAIN_HEAD [T_DECL (-3) (specs [T_CHAR_TS]) (id "c")]) NULL NULL])].
Definition chk : tree := T_FN_CALL (id "__builtin___strcpy_chk") (args_tree [T_STRING "a"; T_STRING "b"; id "nothing"]).

Example C74_nontrivial :
  started env0 s0 /\ reachable env0 with_strcpy /\ runs env0 with_strcpy (id "__builtin___strcpy_chk") (Ok (T_BUILTIN strcpy_chk) with_strcpy) /\
  means with_strcpy "strcpy" (T_FN (id "strcpy") (args_tree [T_DECL (-3) (specs [T_CHAR_TS]) (id "c")]) (D_T D_T_INT) NULL) /\
  Forall2 (simple env0 with_strcpy) [T_STRING "a"; T_STRING "b"] [T_STRING "a"; T_STRING "b"] /\
  returns_at_once env0 with_strcpy (e_dlsym env0 "strcpy") 7 /\ (forall v, ~ means with_strcpy "nothing" v) /\
  trace (final_state (outcome with_strcpy chk)) = [EvCall 7001 [AStr "a"; AStr "b"]] /\ kind_of (outcome with_strcpy chk) = KOk /\
  runs env0 s0 (id "__builtin___strcpy_chk") (Ok (T_BUILTIN strcpy_chk) s0) /\ kind_of (outcome s0 chk) = KDie.
Proof.
  split; [exact started_s0|]. split; [apply reachable_after|].
  split; [apply innermost; split; [apply means_lookup; [discriminate|vm_compute; reflexivity]|reflexivity]|].
  split; [apply means_lookup; [discriminate|vm_compute; reflexivity]|].
  split.
  { generalize with_strcpy. intros s. constructor; [|constructor; [|constructor]]; apply simple_constant; right; left; eexists; reflexivity. }
  split.
  { assert (C : closures with_strcpy = []) by (vm_compute; reflexivity). split; [discriminate|]. split; [discriminate|]. split; [|reflexivity].
    rewrite C. intros c []. }
  split; [apply (unbound env0), identifier_runs; assert (L : lookup with_strcpy "nothing" = NULL) by (vm_compute; reflexivity); rewrite L; reflexivity|].
  split; [vm_compute; reflexivity|]. split; [vm_compute; reflexivity|].
  split; [apply innermost; split; [apply means_lookup; [discriminate|vm_compute; reflexivity]|reflexivity]|vm_compute; reflexivity].
Qed.
