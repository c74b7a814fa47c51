(** Rules for loops, calls, break and nested blocks derived from the characterisations. *)
From Coq Require Import ZArith List String Bool Lia.
From Verif Require Import CInt Tree State Eval StepsFacts EvalInv SpecScope ScopeFacts SpecRun SpecControl SpecStmt
  RunFacts RunRules ExprFacts ControlFacts StmtFacts CallFacts.
Import ListNotations.
Local Open Scope string_scope.
Local Open Scope Z_scope.

Section Loops.
Variable E : env.

(** ** Invariants *)

Lemma loop_rule name c b (st : state -> res tree -> Prop) (I : state -> Prop) s v s' :
  (forall s z s1, I s -> loop_cond E s c (Ok z s1) -> I s1) ->
  (forall s s1 s2 w s3, I s -> runs_body E (open_scope E name s) b (Ok tt s1) -> ~ broke s1 ->
     close_scope tt s1 = Ok tt s2 -> st s2 (Ok w s3) -> I s3) ->
  I s -> loop E name c b st s (Ok v s') ->
  v = NULL /\
  ((I s' /\ exists s1 z, I s1 /\ loop_cond E s1 c (Ok z s') /\ ~ holds z) \/
   (broke s' /\ exists s1 z s2, I s1 /\ loop_cond E s1 c (Ok z s2) /\ holds z /\ I s2 /\
      runs_body E (open_scope E name s2) b (Ok tt s'))).
Proof.
  intros Hc Hb HI H. remember (Ok v s') as r eqn:Hr. revert HI. induction H; intros HI; subst.
  - destruct o; contradiction.
  - injection Hr as <- <-. split; auto. left. split; [eapply Hc; eauto|]. exists s, z. auto.
  - destruct o; contradiction.
  - injection Hr as <- <-. split; auto. right. split; auto. exists s, z, s1. split; auto. split; auto.
    split; auto. split; [eapply Hc; eauto|auto].
  - exfalso. eapply H4. reflexivity.
  - exfalso. eapply H5. reflexivity.
  - apply IHloop; auto. eapply Hb; [eapply Hc; eauto|eauto..].
Qed.

Lemma loop_total name c b (st : state -> res tree -> Prop) (I : state -> Prop) (V : state -> nat) :
  (forall s, I s -> exists z s1, loop_cond E s c (Ok z s1) /\
     (holds z -> exists s2 s3 w s4, runs_body E (open_scope E name s1) b (Ok tt s2) /\ ~ broke s2 /\
        close_scope tt s2 = Ok tt s3 /\ st s3 (Ok w s4) /\ I s4 /\ (V s4 < V s)%nat)) ->
  forall s, I s -> exists s', loop E name c b st s (Ok NULL s').
Proof.
  intros H s. remember (V s) as n eqn:Hn. revert s Hn. induction n as [n IH] using lt_wf_ind. intros s -> HI.
  destruct (H s HI) as (z & s1 & Hc & Hb).
  destruct (truthy z) eqn:Hz; [apply truthy_holds in Hz | apply truthy_not_holds in Hz].
  - destruct (Hb Hz) as (s2 & s3 & w & s4 & H1 & H2 & H3 & H4 & H5 & H6).
    destruct (IH _ H6 s4 eq_refl H5) as [s' Hs']. exists s'. eapply loop_next; eauto.
  - exists s1. eapply loop_done; eauto.
Qed.

Lemma while_rule c b (I : state -> Prop) s v s' :
  (forall s z s1, I s -> loop_cond E s c (Ok z s1) -> I s1) ->
  (forall s s1 s2, I s -> runs_body E (open_scope E "While Loop" s) b (Ok tt s1) -> ~ broke s1 ->
     close_scope tt s1 = Ok tt s2 -> I s2) ->
  I s -> runs E s (T_LOOP_WHILE c b) (Ok v s') ->
  v = NULL /\
  ((I s' /\ exists s1 z, I s1 /\ loop_cond E s1 c (Ok z s') /\ ~ holds z) \/
   (broke s' /\ exists s1 z s2, I s1 /\ loop_cond E s1 c (Ok z s2) /\ holds z /\ I s2 /\
      runs_body E (open_scope E "While Loop" s2) b (Ok tt s'))).
Proof.
  intros Hc Hb HI H. apply while_spec in H. eapply loop_rule; eauto.
  intros s0 s1 s2 w s3 H0 H1 H2 H3 H4. unfold no_step in H4. injection H4 as _ ->. eauto.
Qed.

Lemma while_total c b (I : state -> Prop) (V : state -> nat) :
  (forall s, I s -> exists z s1, loop_cond E s c (Ok z s1) /\
     (holds z -> exists s2 s3, runs_body E (open_scope E "While Loop" s1) b (Ok tt s2) /\ ~ broke s2 /\
        close_scope tt s2 = Ok tt s3 /\ I s3 /\ (V s3 < V s)%nat)) ->
  forall s, I s -> exists s', runs E s (T_LOOP_WHILE c b) (Ok NULL s').
Proof.
  intros H s HI. destruct (loop_total "While Loop" c b no_step I V) with (s := s) as [s' Hs']; auto.
  - intros s1 H1. destruct (H s1 H1) as (z & s2 & H2 & H3). exists z, s2. split; auto. intros Hz.
    destruct (H3 Hz) as (s3 & s4 & H4 & H5 & H6 & H7 & H8). exists s3, s4, NULL, s4.
    split; [exact H4|]. split; [exact H5|]. split; [exact H6|]. split; [reflexivity|]. split; assumption.
  - exists s'. apply while_spec. exact Hs'.
Qed.

Lemma while_false s c z s1 b r : loop_cond E s c (Ok z s1) -> ~ holds z ->
  (runs E s (T_LOOP_WHILE c b) r <-> r = Ok NULL s1).
Proof.
  intros Hc Hz. assert (H : runs E s (T_LOOP_WHILE c b) (Ok NULL s1)) by (apply while_spec; eapply loop_done; eauto).
  split; [intros H'; exact (runs_fun _ _ _ _ _ H' H)|intros ->; exact H].
Qed.

Lemma for_rule i c a b (I : state -> Prop) s w0 s0 v s' :
  (forall s z s1, I s -> loop_cond E s c (Ok z s1) -> I s1) ->
  (forall s s1 s2 w s3, I s -> runs_body E (open_scope E "For Loop" s) b (Ok tt s1) -> ~ broke s1 ->
     close_scope tt s1 = Ok tt s2 -> runs E s2 a (Ok w s3) -> I s3) ->
  runs E s i (Ok w0 s0) -> I s0 -> runs E s (T_LOOP_FOR i c a b) (Ok v s') ->
  v = NULL /\
  ((I s' /\ exists s1 z, I s1 /\ loop_cond E s1 c (Ok z s') /\ ~ holds z) \/
   (broke s' /\ exists s1 z s2, I s1 /\ loop_cond E s1 c (Ok z s2) /\ holds z /\ I s2 /\
      runs_body E (open_scope E "For Loop" s2) b (Ok tt s'))).
Proof.
  intros Hc Hb Hi HI H. apply for_spec in H. destruct H as [(w & s1 & H1 & H)|(o & H1 & H)].
  - pose proof (runs_fun _ _ _ _ _ Hi H1) as X. injection X as <- <-. eapply (loop_rule "For Loop" c b (fun s o => runs E s a o)); [exact Hc|exact Hb|exact HI|exact H].
  - pose proof (runs_fun _ _ _ _ _ Hi H1) as X. subst o. destruct H.
Qed.

(** ** The variables of the initialiser *)

Lemma for_after s i c a b w s1 r : runs E s i (Ok w s1) ->
  (runs E s (T_LOOP_FOR i c a b) r <-> runs E s1 (T_LOOP_FOR NULL c a b) r).
Proof.
  intros Hi. rewrite !for_spec. split.
  - intros [(w' & s' & H1 & H)|(o & H1 & H)].
    + pose proof (runs_fun _ _ _ _ _ Hi H1) as X. injection X as <- <-.
      left. exists NULL, s1. split; auto. apply for_null.
    + pose proof (runs_fun _ _ _ _ _ Hi H1) as X. subst o. destruct H.
  - intros [(w' & s' & H1 & H)|(o & H1 & H)].
    + pose proof (runs_fun _ _ _ _ _ (for_null E s1) H1) as X. injection X as <- <-.
      left. exists w, s1. auto.
    + pose proof (runs_fun _ _ _ _ _ (for_null E s1) H1) as X. subst o. destruct H.
Qed.

Lemma lookup_restored s s' x c cs : restored (stack s) (stack s') -> stack s = c :: cs ->
  resolve_id x (c_idmap c) <> NULL -> lookup s' x = resolve_id x (c_idmap c).
Proof.
  intros Hr Hs Hx. rewrite Hs in Hr. destruct (stack s') as [|c' cs'] eqn:Hs'; [contradiction|].
  destruct Hr as [-> G]. destruct G as (_ & _ & _ & _ & _ & (m & Hm) & _).
  unfold lookup, scope_ctxs. rewrite Hs'. cbn. rewrite Hm, resolve_id_app_l by exact Hx.
  destruct (resolve_id x (c_idmap c)); try reflexivity. congruence.
Qed.

Lemma for_scope s i c a b w s1 v s' x d ds : reachable E s -> runs E s i (Ok w s1) ->
  runs E s (T_LOOP_FOR i c a b) (Ok v s') -> breaks s' = breaks s1 ->
  stack s1 = d :: ds -> resolve_id x (c_idmap d) <> NULL -> lookup s' x = resolve_id x (c_idmap d).
Proof.
  intros Hr Hi H Hb Hs Hx. apply (for_after _ _ _ _ _ _ _ _ Hi) in H.
  eapply lookup_restored; [|exact Hs|exact Hx]. eapply runs_restored; [|exact H|exact Hb].
  eapply reachable_runs; [exact Hr|exact Hi|reflexivity].
Qed.

(** ** Calls without break *)

Lemma call_returns_nobreak s f args name params rt body s1 s2 i v s3 : reachable E s ->
  runs E s f (Ok (T_FN (T_IDENTIFIER name) params rt body) s1) ->
  entered E name params args s1 s2 -> returns E s2 body i v s3 -> breaks s3 = breaks s1 ->
  runs E s (T_FN_CALL f args) (Ok v (set_stack (fun _ => stack s1) s3)).
Proof.
  intros Hr Hf He Hret Hb.
  assert (Hr1 : reachable E s1) by (eapply reachable_runs; [eassumption|eassumption|reflexivity]).
  assert (Hs12 := entered_steps E _ _ _ _ _ He).
  assert (Hr2 : reachable E s2) by (eapply reachable_steps; eauto).
  assert (Hb1 := breaks_mono _ _ _ Hs12).
  assert (Hb2 : breaks s2 <= breaks s3).
  { destruct (returns_last _ _ _ _ _ _ Hret) as (q & Q1 & _ & ->). apply breaks_mono in Q1. exact Q1. }
  destruct (entered_current E _ _ _ _ _ Hr1 He) as (c & Hs2 & Hid & Hfn); [lia|].
  pose proof (returns_activation _ _ _ _ _ _ Hret Hr2) as Ha. rewrite Hs2 in Ha. cbn in Ha. rewrite Hfn in Ha.
  specialize (Ha ltac:(lia)). injection Ha as <-. rewrite Hid in Hret.
  eapply call_returns; eauto. exists c, (stack s1). auto.
Qed.

Lemma call_falls_off_nobreak s f args name params rt body s1 s2 s3 : reachable E s ->
  runs E s f (Ok (T_FN (T_IDENTIFIER name) params rt body) s1) -> body <> NULL ->
  entered E name params args s1 s2 -> runs_body E s2 body (Ok tt s3) -> breaks s3 = breaks s1 ->
  runs E s (T_FN_CALL f args) (Ok NULL (set_stack (fun _ => stack s1) s3)).
Proof.
  intros Hr Hf Hb0 He Hbody Hb.
  assert (Hr1 : reachable E s1) by (eapply reachable_runs; [eassumption|eassumption|reflexivity]).
  assert (Hs12 := entered_steps E _ _ _ _ _ He).
  assert (Hr2 : reachable E s2) by (eapply reachable_steps; eauto).
  assert (Hb1 := breaks_mono _ _ _ Hs12).
  assert (Hb2 := breaks_mono _ _ _ (runs_body_steps _ _ _ _ _ Hbody eq_refl)).
  destruct (entered_current E _ _ _ _ _ Hr1 He) as (c & Hs2 & Hid & Hfn); [lia|].
  assert (Hres := runs_body_restored _ _ _ _ _ Hr2 Hbody ltac:(lia)). rewrite Hs2 in Hres.
  assert (Hne := reachable_nonempty _ _ Hr1).
  assert (Hc : close_scope NULL s3 = Ok NULL (set_stack (fun _ => stack s1) s3)).
  { unfold close_scope. destruct (stack s3) as [|c' cs'] eqn:Hs3; [contradiction|].
    destruct Hres as [-> _]. destruct (stack s1); [congruence|]. reflexivity. }
  rewrite <- Hc. apply (call_falls_off E s f args name params rt body s1 s2 s3); auto. congruence.
Qed.

(** ** Break *)

(** The innermost scope is marked. *)
Lemma break_runs s c cs : stack s = c :: cs ->
  runs E s T_BREAK (Ok T_BREAK (set_breaks (fun n => n + 1)
    (set_stack (fun _ => mkctx (c_id c) (c_name c) (c_idmap c) (c_structs c) (c_unions c) (c_allocs c)
                           (c_retval c) true (c_isfn c) :: cs) s))).
Proof.
  intros Hs. apply (runs_intro E s _ _ 1%nat); [|discriminate]. cbn [K k_ev evaluate_1].
  unfold eval_break, upd_top, modify, bind, ret. rewrite Hs. reflexivity.
Qed.

(** ** Blocks as items *)

Lemma nested_block_run s l : runs E s (CHAIN_HEAD l) (Ok NULL s).
Proof. apply (runs_intro E s _ _ 1%nat); [reflexivity|discriminate]. Qed.

Lemma nested_block_skipped pre l post s r :
  block E (pre ++ CHAIN_HEAD l :: post) s r <-> block E (pre ++ post) s r.
Proof.
  split.
  - revert s. induction pre as [|i pre IH]; intros s H; cbn [app] in *.
    + pose proof (nested_block_run s l) as N.
      inversion H; subst; match goal with
      | R : runs E s (CHAIN_HEAD l) _ |- _ => pose proof (runs_fun _ _ _ _ _ N R) as X
      end; try discriminate.
      * injection X as <- <-. assumption.
      * subst o. match goal with Q : same_stop _ _ |- _ => destruct Q end.
    + inversion H; subst.
      * eapply block_next; eauto.
      * eapply block_break; eauto.
      * eapply block_return; eauto.
      * eapply block_stops; eauto.
  - revert s. induction pre as [|i pre IH]; intros s H; cbn [app] in *.
    + eapply block_next; [apply nested_block_run|reflexivity|exact H].
    + inversion H; subst.
      * eapply block_next; eauto.
      * eapply block_break; eauto.
      * eapply block_return; eauto.
      * eapply block_stops; eauto.
Qed.

Lemma skip_nested_block pre l post s r :
  runs_body E s (CHAIN_HEAD (pre ++ CHAIN_HEAD l :: post)) r <-> runs_body E s (CHAIN_HEAD (pre ++ post)) r.
Proof. rewrite !block_spec. apply nested_block_skipped. Qed.

End Loops.
