(** Break statements. *)
From Coq Require Import ZArith List String Bool Lia.
From Verif Require Import CInt Tree State Eval StepsFacts EvalInv SpecScope ScopeFacts SpecRun SpecControl SpecStmt
  RunFacts RunRules ExprFacts ControlFacts StmtFacts CallFacts LoopFacts.
Import ListNotations.
Local Open Scope string_scope.
Local Open Scope Z_scope.

Section Breaks.
Variable E : env.

Lemma break_marks s : stack s <> [] -> runs E s T_BREAK (Ok T_BREAK (marked s)).
Proof.
  intros H. destruct (stack s) as [|c cs] eqn:Hs; [congruence|].
  pose proof (break_runs E s c cs Hs) as Hb.
  replace (marked s) with (set_breaks (fun n => n + 1)
    (set_stack (fun _ => mkctx (c_id c) (c_name c) (c_idmap c) (c_structs c) (c_unions c) (c_allocs c)
                           (c_retval c) true (c_isfn c) :: cs) s)); [exact Hb|].
  unfold marked, set_breaks, set_stack. cbn. rewrite Hs. reflexivity.
Qed.

Lemma marked_broke s : stack s <> [] -> broke (marked s).
Proof. intros H. unfold broke, marked, set_breaks, set_stack. cbn. destruct (stack s); [congruence|]. eauto. Qed.

Lemma loop_stmt_break name c b t s z s1 s2 : loop_stmt name c b t ->
  loop_cond E s c (Ok z s1) -> holds z ->
  runs_body E (open_scope E name s1) b (Ok tt s2) -> broke s2 -> runs E s t (Ok NULL s2).
Proof.
  intros Ht Hc Hz Hb Hk. destruct Ht.
  - apply while_spec. eapply loop_break; eauto.
  - apply for_spec. left. exists NULL, s. split; [apply for_null|]. eapply loop_break; eauto.
Qed.

Lemma block_with_break pre post s s1 : items E pre s s1 -> stack s1 <> [] ->
  runs_body E s (CHAIN_HEAD (pre ++ T_BREAK :: post)) (Ok tt (marked s1)).
Proof.
  intros Hi Hs. apply block_spec. eapply items_block; [exact Hi|]. apply block_break, break_marks, Hs.
Qed.

Lemma single_break s : stack s <> [] -> runs_body E s T_BREAK (Ok tt (marked s)).
Proof. intros Hs. apply single_spec; [reflexivity|]. left. eexists _, _. split; [apply break_marks, Hs|reflexivity]. Qed.

Lemma break_in_loop name c pre post t s z s1 s2 : reachable E s ->
  loop_stmt name c (CHAIN_HEAD (pre ++ T_BREAK :: post)) t ->
  loop_cond E s c (Ok z s1) -> holds z -> items E pre (open_scope E name s1) s2 ->
  runs E s t (Ok NULL (marked s2)).
Proof.
  intros Hr Ht Hc Hz Hi.
  assert (Hs2 : stack s2 <> []).
  { apply (reachable_nonempty E). eapply reachable_steps; [exact Hr|].
    eapply steps_trans; [eapply loop_cond_steps; eauto|].
    eapply steps_trans; [apply open_scope_steps|]. eapply items_steps; eauto. }
  eapply loop_stmt_break; eauto; [apply block_with_break; auto|apply marked_broke, Hs2].
Qed.

Lemma break_as_body name c t s z s1 : loop_stmt name c T_BREAK t ->
  loop_cond E s c (Ok z s1) -> holds z -> runs E s t (Ok NULL (marked (open_scope E name s1))).
Proof.
  intros Ht Hc Hz. eapply loop_stmt_break; eauto; [apply single_break|apply marked_broke]; discriminate.
Qed.

(** ** Inside if *)

Lemma if_arm s c a b z s1 arm s2 : int_value E s c (Ok z s1) -> (holds z /\ arm = a \/ ~ holds z /\ arm = b) ->
  runs_body E (open_scope E "If statement" s1) arm (Ok tt s2) ->
  close_scope NULL s2 <> Fuel -> runs E s (T_IF c a b) (close_scope NULL s2).
Proof.
  intros Hc Ha Hb _. apply if_spec. left. exists z, s1, arm. split; auto. split; auto. left. eauto.
Qed.

Lemma break_in_if pre post s c a b z s1 s2 arm : reachable E s ->
  int_value E s c (Ok z s1) -> (holds z /\ arm = a \/ ~ holds z /\ arm = b) ->
  arm = CHAIN_HEAD (pre ++ T_BREAK :: post) ->
  items E pre (open_scope E "If statement" s1) s2 -> breaks s2 = breaks s1 ->
  exists s3, runs E s (T_IF c a b) (Ok NULL s3) /\ stack s3 = stack s1 /\ mem s3 = mem s2 /\ blocks s3 = blocks s2.
Proof.
  intros Hr Hc Ha -> Hi Hb.
  assert (Hr1 : reachable E s1) by (eapply reachable_steps; [exact Hr|eapply int_value_steps; [exact Hc|reflexivity]]).
  assert (Hr1' : reachable E (open_scope E "If statement" s1)) by (eapply reachable_steps; [exact Hr1|apply open_scope_steps]).
  destruct (items_restored E _ _ _ Hi Hr1') as [Hrest Hr2]; [exact Hb|].
  pose proof (reachable_nonempty _ _ Hr2) as Hne.
  pose proof (reachable_nonempty _ _ Hr1) as Hne1.
  destruct (stack s2) as [|d ds] eqn:Hs2; [congruence|].
  assert (Hds : ds = stack s1) by (destruct Hrest as [Hrest _]; exact Hrest).
  assert (Hcl : close_scope NULL (marked s2) = Ok NULL (set_stack (fun _ => ds) (marked s2))).
  { unfold close_scope, marked, set_breaks, set_stack. cbn. rewrite Hs2. rewrite Hds. destruct (stack s1); [congruence|reflexivity]. }
  exists (set_stack (fun _ => ds) (marked s2)). split; [|auto].
  rewrite <- Hcl. eapply if_arm; eauto; [apply block_with_break; [exact Hi|congruence]|rewrite Hcl; discriminate].
Qed.

Lemma break_unbraced_if s c a b z s1 arm : reachable E s ->
  int_value E s c (Ok z s1) -> (holds z /\ arm = a \/ ~ holds z /\ arm = b) -> arm = T_BREAK ->
  exists s3, runs E s (T_IF c a b) (Ok NULL s3) /\ stack s3 = stack s1 /\ mem s3 = mem s1.
Proof.
  intros Hr Hc Ha ->.
  assert (Hr1 : reachable E s1) by (eapply reachable_steps; [exact Hr|eapply int_value_steps; [exact Hc|reflexivity]]).
  pose proof (reachable_nonempty _ _ Hr1) as Hne1.
  assert (Hcl : close_scope NULL (marked (open_scope E "If statement" s1)) =
                Ok NULL (set_stack (fun _ => stack s1) (marked (open_scope E "If statement" s1)))).
  { unfold close_scope, marked, open_scope, set_breaks, set_stack, set_fresh. cbn. destruct (stack s1); [congruence|reflexivity]. }
  exists (set_stack (fun _ => stack s1) (marked (open_scope E "If statement" s1))). split; [|auto].
  rewrite <- Hcl. eapply if_arm; eauto; [apply single_break; discriminate|rewrite Hcl; discriminate].
Qed.

(** ** The mark outlives the loop *)

Lemma grows_broke s s' : restored (stack s) (stack s') -> broke s -> broke s'.
Proof.
  intros H (c & cs & Hs & Hb). rewrite Hs in H. destruct (stack s') as [|c' cs'] eqn:Hs'; [contradiction|].
  destruct H as [_ (_ & _ & _ & Hg & _)]. exists c', cs'. rewrite Hg. auto.
Qed.

Lemma block_items l s s' : items E l s s' -> block E l s (Ok tt s').
Proof. induction 1; [constructor|]. eapply block_next; eauto. Qed.

Lemma break_escapes name c pre i post t s z s1 s2 v s3 s4 : reachable E s ->
  loop_stmt name c (CHAIN_HEAD (pre ++ i :: post)) t ->
  loop_cond E s c (Ok z s1) -> holds z -> items E pre (open_scope E name s1) s2 ->
  runs E s2 i (Ok v s3) -> ends_list v = false -> broke s3 ->
  items E post s3 s4 -> breaks s4 = breaks s3 ->
  runs E s t (Ok NULL s4).
Proof.
  intros Hr Ht Hc Hz Hi Hv Hv0 Hk Hp Hb.
  assert (Hr3 : reachable E s3).
  { eapply reachable_steps; [exact Hr|]. eapply steps_trans; [eapply loop_cond_steps; eauto|].
    eapply steps_trans; [apply open_scope_steps|]. eapply steps_trans; [eapply items_steps; eauto|].
    eapply runs_steps; [exact Hv|reflexivity]. }
  eapply loop_stmt_break; eauto.
  - apply block_spec. eapply items_block; [exact Hi|]. eapply block_next; eauto. apply block_items, Hp.
  - eapply grows_broke; [|exact Hk]. apply (items_restored E _ _ _ Hp Hr3 Hb).
Qed.
End Breaks.
