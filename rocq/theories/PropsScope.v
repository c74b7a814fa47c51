(** Property theorems about scopes and names: C14, C15, C16. *)
From Coq Require Import ZArith List String Bool Lia.
From Verif Require Import CInt Tree SpecResolver State Eval StepsFacts EvalInv SpecScope ScopeFacts SpecRun RunFacts RunRules
  SpecControl SpecStmt ControlFacts CallFacts SpecNames NameFacts TestEnv TestRun TestReturn.
Import ListNotations.
Local Open Scope string_scope.
Local Open Scope Z_scope.
Local Open Scope list_scope.

(** * C14: scopes are restored *)

(** An evaluation in which no break statement is executed leaves all scopes but the innermost
    one as they were; the innermost one may have gained entries. *)
Theorem C14_scopes_restored : forall E s t v s',
  reachable E s -> runs E s t (Ok v s') -> breaks s' = breaks s -> restored (stack s) (stack s').
Proof. exact runs_restored. Qed.
Print Assumptions C14_scopes_restored.

Theorem C14_scopes_restored_body : forall E s t v s',
  reachable E s -> runs_body E s t (Ok v s') -> breaks s' = breaks s -> restored (stack s) (stack s').
Proof. exact runs_body_restored. Qed.
Print Assumptions C14_scopes_restored_body.

(** [if (1) { int y = 5; int x = y; }] after [int x = -7;]. *)
Definition one_var : state := after [init_int 1 "x" (num (-7))].
Definition inner_block : tree := T_IF (num 1) (CHAIN_HEAD [init_int 2 "y" (num 5); init_int 3 "x" (id "y")]) NULL.
Example C14_nontrivial : exists s',
  reachable env0 one_var /\ runs env0 one_var inner_block (Ok NULL s') /\ breaks s' = breaks one_var /\
  List.length (stack s') = 2%nat.
Proof.
  exists (final_state (outcome one_var inner_block)). split; [apply reachable_after|].
  split; [apply outcome_ok; vm_compute; reflexivity|]. split; vm_compute; reflexivity.
Qed.

(** With break statements it is false: a loop that is left by break leaves its scope behind. *)
Theorem C14_with_break_refuted : exists E s t v s',
  reachable E s /\ runs E s t (Ok v s') /\ ~ restored (stack s) (stack s').
Proof.
  exists env0, s0, (T_LOOP_WHILE (num 1) (CHAIN_HEAD [T_BREAK])), NULL,
    (final_state (outcome s0 (T_LOOP_WHILE (num 1) (CHAIN_HEAD [T_BREAK])))).
  split; [apply reachable_s0|]. split; [apply outcome_ok; vm_compute; reflexivity|].
  intros H. assert (Hl : List.length (stack s0) = 2%nat) by (vm_compute; reflexivity).
  assert (Hl' : List.length (stack (final_state (outcome s0 (T_LOOP_WHILE (num 1) (CHAIN_HEAD [T_BREAK]))))) = 3%nat)
    by (vm_compute; reflexivity).
  destruct (stack s0) as [|c cs]; [discriminate|].
  destruct (stack (final_state (outcome s0 (T_LOOP_WHILE (num 1) (CHAIN_HEAD [T_BREAK]))))) as [|c' cs']; [discriminate|].
  destruct H as [-> _]. cbn in *. lia.
Qed.
Print Assumptions C14_with_break_refuted.

(** * C15: names *)

(** A name evaluates to the innermost declaration; a name without one stops the program. *)
Theorem C15_innermost_wins : forall E s x v s',
  runs E s (T_IDENTIFIER x) (Ok v s') <-> means s x v /\ s' = s.
Proof. exact innermost. Qed.
Print Assumptions C15_innermost_wins.

Theorem C15_undeclared_dies : forall E s x,
  (forall v, ~ means s x v) <-> runs E s (T_IDENTIFIER x) (Die s).
Proof. exact unbound. Qed.
Print Assumptions C15_undeclared_dies.

(** In every reachable state every scope has at most one entry for a declared name. *)
Theorem C15_mapped_once : forall E s c x v m1 m2,
  reachable E s -> In c (visible s) -> v <> NULL ->
  c_idmap c = m1 ++ (x, v) :: m2 -> ~ In x (map fst m1) -> ~ In x (map fst m2).
Proof. exact one_entry. Qed.
Print Assumptions C15_mapped_once.

(** No evaluation, however it ends, changes what a name stands for in a scope that is still
    there. *)
Theorem C15_never_rebound : forall E s t r s' c c' x v,
  reachable E s -> runs E s t r -> final r = Some s' ->
  In c (stack s) -> v <> NULL -> entry (c_idmap c) x v ->
  In c' (stack s') -> c_id c' = c_id c -> entry (c_idmap c') x v.
Proof. exact binding_kept. Qed.
Print Assumptions C15_never_rebound.

(** Inside [if (1) { int x = 1; ... }] after [int x = -7;], [x] is the inner one; the outer one
    is still there. *)
Definition inside : state :=
  final_state (outcome (open_scope env0 "If statement" one_var) (init_int 4 "x" (num 1))).
Lemma inside_reachable : reachable env0 inside.
Proof.
  apply reachable_outcome. apply (reachable_steps env0 one_var); [apply reachable_after|].
  apply (open_scope_steps env0 "If statement" one_var).
Qed.
Example C15_nontrivial : exists c c1 c2 v w,
  reachable env0 inside /\ stack inside = [c; c1; c2] /\ means inside "x" v /\ v <> NULL /\ v <> w /\
  entry (c_idmap c1) "x" w /\ w <> NULL.
Proof.
  pose proof inside_reachable as Hr.
  assert (Hl : List.length (stack inside) = 3%nat) by (vm_compute; reflexivity).
  assert (H1 : lookup inside "x" = T_LIVE_VAR (D_T D_T_INT) 4144 false 0) by (vm_compute; reflexivity).
  assert (H2 : match stack inside with _ :: c :: _ => resolve_id "x" (c_idmap c) | _ => NULL end
               = T_LIVE_VAR (D_T D_T_INT) 4112 false 0) by (vm_compute; reflexivity).
  destruct (stack inside) as [|c [|c1 [|c2 [|c3 l]]]] eqn:Hs; try discriminate Hl.
  exists c, c1, c2, (T_LIVE_VAR (D_T D_T_INT) 4144 false 0), (T_LIVE_VAR (D_T D_T_INT) 4112 false 0).
  split; [exact Hr|]. split; [reflexivity|]. split; [apply means_lookup; [discriminate|exact H1]|].
  split; [discriminate|]. split; [discriminate|]. split; [|discriminate].
  apply entry_resolve; [discriminate|exact H2].
Qed.

(** * C16: dynamic scope *)

(** When the body of a called function starts, there is one new scope; a name it does not
    declare means what it means to the caller. *)
Theorem C16_caller_names_visible : forall E name params args s s2,
  reachable E s -> entered E name params args s s2 -> breaks s2 = breaks s ->
  exists c, stack s2 = c :: stack s /\ c_id c = fresh s /\
    forall x v, ~ declares c x -> (found_in (stack s2) x v <-> found_in (stack s) x v).
Proof. exact call_scopes. Qed.
Print Assumptions C16_caller_names_visible.

(** This remains so for as long as the call lasts: at any later point at which the scope of the
    call is still there, a name declared neither by it nor by a scope inside it means what it
    means to the caller. *)
Theorem C16_throughout_the_call : forall E name params args s s2 s3 pre c post,
  reachable E s -> entered E name params args s s2 -> steps E s2 s3 ->
  stack s3 = pre ++ c :: post -> c_id c = fresh s ->
  post = stack s /\
  forall x v, (forall d, In d (pre ++ [c]) -> ~ declares d x) -> (found_in (stack s3) x v <-> found_in (stack s) x v).
Proof. exact call_scopes_later. Qed.
Print Assumptions C16_throughout_the_call.

(** [int x = 1; int f() { return x; } int g() { int x = 2; return f(); }]: [f()] gives 1, [g()]
    gives 2, C gives 1 for both. *)
Definition dyn : list tree :=
  [init_int 1 "x" (num 1); fn_int 2 "f" NULL [T_RETURN 3 (T_BINOP ADD (id "x") (num 0))];
   fn_int 4 "g" NULL [init_int 5 "x" (num 2); T_RETURN 6 (call "f" [])]].
Example C16_dynamic :
  value (outcome (after dyn) (call "f" [])) = Some (num 1) /\
  value (outcome (after dyn) (call "g" [])) = Some (num 2).
Proof. vm_compute. auto. Qed.
Example C16_nontrivial : exists s2,
  reachable env0 inside /\ entered env0 "f" NULL NULL inside s2 /\ breaks s2 = breaks inside /\
  forall v, found_in (stack inside) "x" v <-> found_in (stack s2) "x" v.
Proof.
  pose proof inside_reachable as Hr. revert Hr. generalize inside. intros s Hr.
  exists (open_activation env0 "f" s).
  assert (He : entered env0 "f" NULL NULL s (open_activation env0 "f" s)) by (left; split; reflexivity).
  split; [exact Hr|]. split; [exact He|]. split; [reflexivity|].
  destruct (C16_caller_names_visible _ _ _ _ _ _ Hr He eq_refl) as (c & Hs & _ & Hf).
  intros v. symmetry. apply Hf. intros Hd. apply declares_resolve in Hd. apply Hd.
  cbn [open_activation set_stack stack] in Hs. injection Hs as <-. reflexivity.
Qed.
