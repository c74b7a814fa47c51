(** Property theorems about calls of external functions: C29. *)
From Coq Require Import ZArith List String Bool Lia.
From Verif Require Import CInt Tree State Eval StepsFacts SpecRun SpecNames SpecVars SpecPtr SpecExt
  RunFacts NameFacts PtrFacts ExtFacts TestEnv TestRun.
Import ListNotations.
Local Open Scope string_scope.
Local Open Scope Z_scope.
Local Open Scope list_scope.

(** ** C29: external calls *)

(** A call of an external function by its name, for every outcome of the call: either the function is not
    entered (an argument has no value, no memory, or an error, see SpecExt.v), or there are at
    most 32 arguments; they are evaluated from left to right and the function is entered with exactly
    these values, in order, each passed as [passes] says.  [l] are the calls made by the function. *)
Theorem C29_call : forall E f name ps rt ts p s s1 r, reachable E s ->
  function E s f (T_FN (T_IDENTIFIER name) (args_tree ps) rt NULL) s1 -> e_dlsym E name <> 0 -> ellipsis ps p ->
  runs E s (T_FN_CALL f (args_tree ts)) r -> r <> UB ->
  not_entered E s1 ts rt r \/
  exists vs s2 s3 args s4 l s', evaluated E s1 ts vs s2 /\ only_new E s2 [] s3 /\ passed E p 0 s3 vs args s4 /\
    (List.length vs <= 32)%nat /\ final r = Some s' /\ calls_since s2 s' (l ++ [EvCall (e_dlsym E name) args]).
Proof.
  intros E f name ps rt ts p s s1 r Hr Hf. apply named_call; [|exact Hf].
  exact (reachable_nonempty _ _ (function_reachable E s f _ s1 Hr Hf)).
Qed.
Print Assumptions C29_call.

(** The same for a call through a pointer, such as that of a function declared [extern]: the
    address is read after the arguments have been evaluated. *)
Theorem C29_call_pointer : forall E f d ps rt st a arr n ts p s s1 r, reachable E s ->
  function E s f (T_LIVE_VAR (D_T_PTR (T_FN d (args_tree ps) rt st)) a arr n) s1 -> ellipsis ps p ->
  runs E s (T_FN_CALL f (args_tree ts)) r -> r <> UB ->
  (exists s', r = NoMemory 16 s' /\ refuses E 16 s' /\ calls_since s1 s' []) \/
  exists s1', only_new E s1 [] s1' /\
    (not_entered E s1' ts rt r \/
     exists vs s2 s3 args s4 l s', evaluated E s1' ts vs s2 /\ only_new E s2 [] s3 /\ passed E p 0 s3 vs args s4 /\
       (List.length vs <= 32)%nat /\ final r = Some s' /\ calls_since s2 s' (l ++ [EvCall (unsigned_at (mem s2) a 8) args])).
Proof.
  intros E f d ps rt st a arr n ts p s s1 r Hr Hf. apply (pointer_call E f d ps rt st a arr n ts p s s1 r); [|exact Hf].
  exact (reachable_nonempty _ _ (function_reachable E s f _ s1 Hr Hf)).
Qed.
Print Assumptions C29_call_pointer.

(** With constants and variables as arguments and a function that returns at once, the call succeeds
    unless memory runs out; the function is called exactly once, with these arguments, and its
    result is stored; nothing else that is in use changes. *)
Theorem C29_returns : forall E f name ps rt ts vs p s s1 bits, reachable E s ->
  function E s f (T_FN (T_IDENTIFIER name) (args_tree ps) rt NULL) s1 -> ellipsis ps p -> result_type rt ->
  Forall2 (simple E s1) ts vs -> (List.length ts <= 32)%nat -> returns_at_once E s1 (e_dlsym E name) bits ->
  out_of_memory E s (T_FN_CALL f (args_tree ts)) 16 \/
  exists args v s', runs E s (T_FN_CALL f (args_tree ts)) (Ok v s') /\ passed_as E s1 p vs args /\
    calls_since s1 s' [EvCall (e_dlsym E name) args] /\ result E s1 s' bits rt v /\ kept E s1 s'.
Proof.
  intros E f name ps rt ts vs p s s1 bits Hr Hf Hp Hrt Hv Hl Ho.
  assert (Hs := reachable_nonempty _ _ (function_reachable E s f _ s1 Hr Hf)).
  destruct (reach_named E f name ps rt ts vs p s s1 Hs Hf Hp Hv (proj1 Ho)) as [H|(rl & s3 & H1 & H2 & H3 & H4)]; [left; exact H|].
  eapply once_end; eauto.
Qed.
Print Assumptions C29_returns.

Theorem C29_returns_pointer : forall E f d ps rt st a arr n ts vs p s s1 bits, reachable E s ->
  function E s f (T_LIVE_VAR (D_T_PTR (T_FN d (args_tree ps) rt st)) a arr n) s1 -> ellipsis ps p -> result_type rt ->
  storage E s1 a 8 -> Forall2 (simple E s1) ts vs -> (List.length ts <= 32)%nat -> returns_at_once E s1 (unsigned_at (mem s1) a 8) bits ->
  out_of_memory E s (T_FN_CALL f (args_tree ts)) 16 \/
  exists args v s', runs E s (T_FN_CALL f (args_tree ts)) (Ok v s') /\ passed_as E s1 p vs args /\
    calls_since s1 s' [EvCall (unsigned_at (mem s1) a 8) args] /\ result E s1 s' bits rt v /\ kept E s1 s'.
Proof.
  intros E f d ps rt st a arr n ts vs p s s1 bits Hr Hf Hp Hrt Ha Hv Hl Ho.
  assert (Hs := reachable_nonempty _ _ (function_reachable E s f _ s1 Hr Hf)).
  destruct (reach_pointer E f d ps rt st a arr n ts vs p s s1 Hs Hf Hp Ha Hv) as [H|(rl & s3 & H1 & H2 & H3 & H4)]; [left; exact H|].
  eapply once_end; eauto.
Qed.
Print Assumptions C29_returns_pointer.

(** With more than 32 arguments the program exits with an error, and the function is not called. *)
Theorem C29_too_many : forall E f name ps rt ts vs p s s1, reachable E s ->
  function E s f (T_FN (T_IDENTIFIER name) (args_tree ps) rt NULL) s1 -> ellipsis ps p -> e_dlsym E name <> 0 ->
  Forall2 (simple E s1) ts vs -> (32 < List.length ts)%nat ->
  out_of_memory E s (T_FN_CALL f (args_tree ts)) 16 \/
  exists s', runs E s (T_FN_CALL f (args_tree ts)) (Die s') /\ calls_since s1 s' [].
Proof.
  intros E f name ps rt ts vs p s s1 Hr Hf Hp Ha Hv Hl.
  assert (Hs := reachable_nonempty _ _ (function_reachable E s f _ s1 Hr Hf)).
  destruct (reach_named E f name ps rt ts vs p s s1 Hs Hf Hp Hv Ha) as [H|(rl & s3 & H1 & H2 & H3 & H4)]; [left; exact H|].
  eapply many_end; eauto.
Qed.
Print Assumptions C29_too_many.

Theorem C29_too_many_pointer : forall E f d ps rt st a arr n ts vs p s s1, reachable E s ->
  function E s f (T_LIVE_VAR (D_T_PTR (T_FN d (args_tree ps) rt st)) a arr n) s1 -> ellipsis ps p -> storage E s1 a 8 ->
  Forall2 (simple E s1) ts vs -> (32 < List.length ts)%nat ->
  out_of_memory E s (T_FN_CALL f (args_tree ts)) 16 \/
  exists s', runs E s (T_FN_CALL f (args_tree ts)) (Die s') /\ calls_since s1 s' [].
Proof.
  intros E f d ps rt st a arr n ts vs p s s1 Hr Hf Hp Ha Hv Hl.
  assert (Hs := reachable_nonempty _ _ (function_reachable E s f _ s1 Hr Hf)).
  destruct (reach_pointer E f d ps rt st a arr n ts vs p s s1 Hs Hf Hp Ha Hv) as [H|(rl & s3 & H1 & H2 & H3 & H4)]; [left; exact H|].
  eapply many_end; eauto.
Qed.
Print Assumptions C29_too_many_pointer.

(** A function declared [extern] is looked up by its name; its value is a new pointer to it. *)
Theorem C29_extern : forall E s x ps rt st, let g := T_FN (T_IDENTIFIER x) ps rt st in
  reachable E s -> ~ In x ["alloca"; "atexit"; "at_quick_exit"] -> e_dlsym E x <> 0 ->
  out_of_memory E s (T_EXT_FUNC g) 16 \/
  exists a s', runs E s (T_EXT_FUNC g) (Ok (T_LIVE_VAR (D_T_PTR g) a false 0) s') /\ only_new E s [] s' /\
    new_object E s a 16 s' /\ unsigned_at (mem s') a 8 = e_dlsym E x mod 2 ^ 64.
Proof. intros E s x ps rt st g Hr. apply extern_function. exact (reachable_nonempty _ _ Hr). Qed.
Print Assumptions C29_extern.

(** [char c = 200; int puts(char c, ...);] and the same with [extern]; 33 times the constant 1. *)
Definition puts_params : list tree := [T_DECL (-3) (specs [T_CHAR_TS]) (id "c"); T_VARIADIC].
Definition with_puts (pre : list spec) : state := after
  [T_DECL (-1) (specs [T_CHAR_TS]) (CHAIN_HEAD [T_ASSIGN (-1) (id "c") (num 200)]);
   T_DECL (-2) (specs (pre ++ [T_INT_TS])) (CHAIN_HEAD [T_FN (id "puts") (CHAIN_HEAD puts_params) NULL NULL])].
Definition puts_args : list tree := [id "c"; id "c"; num 4294967301; T_STRING "s"].
Definition puts_values : list tree := [T_LIVE_VAR (D_T D_T_CHAR) 4112 false 0; T_LIVE_VAR (D_T D_T_CHAR) 4112 false 0; num 4294967301; T_STRING "s"].
Definition ones : list tree := repeat (num 1) 33.

Lemma puts_ellipsis : ellipsis puts_params (Some 1%nat).
Proof. apply (ellipsis_at [_] []). intros [H|[]]. discriminate H. Qed.
Lemma puts_simple : Forall2 (simple env0 (with_puts [])) puts_args puts_values.
Proof.
  assert (H : simple env0 (with_puts []) (id "c") (T_LIVE_VAR (D_T D_T_CHAR) 4112 false 0)).
  { apply simple_variable; [apply means_lookup; [discriminate|vm_compute; reflexivity]|]. apply storageb_ok. vm_compute. reflexivity. }
  revert H. generalize (with_puts []). intros s H.
  constructor; [exact H|]. constructor; [exact H|]. constructor; [apply simple_constant; left; eexists; reflexivity|].
  constructor; [apply simple_constant; right; left; eexists; reflexivity|]. constructor.
Qed.
Lemma ones_simple s : Forall2 (simple env0 s) ones ones.
Proof. unfold ones. generalize 33%nat. induction n; cbn; constructor; auto. apply simple_constant. left. eexists. reflexivity. Qed.
Lemma no_closures addr : closures (with_puts []) = [] -> addr <> 0 -> addr <> 9001 -> returns_at_once env0 (with_puts []) addr 7.
Proof. intros H H1 H2. split; [exact H1|]. split; [exact H2|]. split; [|reflexivity]. rewrite H. intros c []. Qed.

Example C29_nontrivial :
  reachable env0 (with_puts []) /\ reachable env0 (with_puts [T_EXTERN]) /\
  function env0 (with_puts []) (id "puts") (T_FN (id "puts") (args_tree puts_params) (D_T D_T_INT) NULL) (with_puts []) /\
  runs env0 (with_puts [T_EXTERN]) (id "puts")
    (Ok (T_EXT_FUNC (T_FN (id "puts") (args_tree puts_params) (D_T D_T_INT) NULL)) (with_puts [T_EXTERN])) /\
  e_dlsym env0 "puts" = 7000 /\ ellipsis puts_params (Some 1%nat) /\ result_type (D_T D_T_INT) /\
  Forall2 (simple env0 (with_puts [])) puts_args puts_values /\ returns_at_once env0 (with_puts []) 7000 7 /\
  trace (final_state (outcome (with_puts []) (T_FN_CALL (id "puts") (args_tree puts_args)))) =
    [EvCall 7000 [AVal (Some D_T_CHAR) (-56); AVal (Some D_T_INT) (-56); AVal (Some D_T_INT) 5; AStr "s"]] /\
  value_at (final_state (outcome (with_puts []) (T_FN_CALL (id "puts") (args_tree puts_args)))) D_T_INT 4144 = 7 /\
  trace (final_state (outcome (with_puts [T_EXTERN]) (T_FN_CALL (id "puts") (args_tree puts_args)))) =
    [EvCall 7000 [AVal (Some D_T_CHAR) (-56); AVal (Some D_T_INT) (-56); AVal (Some D_T_INT) 5; AStr "s"]] /\
  Forall2 (simple env0 (with_puts [])) ones ones /\ (32 < List.length ones)%nat /\
  kind_of (outcome (with_puts []) (T_FN_CALL (id "puts") (args_tree ones))) = KDie.
Proof.
  split; [apply reachable_after|]. split; [apply reachable_after|].
  split; [apply function_plain; [|discriminate]; apply innermost; split; [apply means_lookup; [discriminate|vm_compute; reflexivity]|reflexivity]|].
  split; [apply innermost; split; [apply means_lookup; [discriminate|vm_compute; reflexivity]|reflexivity]|].
  split; [reflexivity|]. split; [exact puts_ellipsis|]. split; [reflexivity|]. split; [exact puts_simple|].
  split; [apply no_closures; [vm_compute; reflexivity|discriminate|discriminate]|].
  split; [vm_compute; reflexivity|]. split; [vm_compute; reflexivity|]. split; [vm_compute; reflexivity|].
  split; [apply ones_simple|]. split; [cbn; lia|]. vm_compute. reflexivity.
Qed.
