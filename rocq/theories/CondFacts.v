(** Consequences of the characterisations of conditions and logical operators. *)
From Coq Require Import ZArith List String Bool Lia.
From Verif Require Import CInt Tree State Eval StepsFacts SpecRun SpecExpr SpecControl RunFacts RunRules
  ExprFacts ControlFacts.
Import ListNotations.
Local Open Scope string_scope.
Local Open Scope Z_scope.

Lemma skipped_operand E s a s1 b b' x :
  int_value E s a (Ok x s1) ->
  (x = 0 -> forall r, runs E s (T_L_AND a b) r <-> runs E s (T_L_AND a b') r) /\
  (x <> 0 -> forall r, runs E s (T_L_OR a b) r <-> runs E s (T_L_OR a b') r) /\
  only_gc E s1 (after_tick E s1).
Proof.
  intros H. split; [|split; [|apply gc_only_tick]].
  - intros ->.
    assert (R : forall q, runs E s (T_L_AND a q) (Ok (T_INTEGER 0) (after_tick E s1))).
    { intros q. apply and_spec. left. exists s1. auto. }
    intros r. split; intros Hr; rewrite <- (runs_fun _ _ _ _ _ (R _) Hr); apply R.
  - intros Hx.
    assert (R : forall q, runs E s (T_L_OR a q) (Ok (T_INTEGER 1) (after_tick E s1))).
    { intros q. apply or_spec. left. exists x, s1. auto. }
    intros r. split; intros Hr; rewrite <- (runs_fun _ _ _ _ _ (R _) Hr); apply R.
Qed.

Lemma result_boolean E s a b v s' :
  runs E s (T_L_AND a b) (Ok v s') \/ runs E s (T_L_OR a b) (Ok v s') ->
  v = T_INTEGER 0 \/ v = T_INTEGER 1.
Proof.
  intros [H|H]; [exact (logic_boolean E false s a b v s' H) | exact (logic_boolean E true s a b v s' H)].
Qed.

Lemma other_arm E s c z s1 a b a' b' r :
  int_value E s c (Ok z s1) ->
  (holds z -> (runs E s (T_INFIX c a b) r <-> runs E s (T_INFIX c a b') r) /\
              (runs E s (T_IF c a b) r <-> runs E s (T_IF c a b') r)) /\
  (~ holds z -> (runs E s (T_INFIX c a b) r <-> runs E s (T_INFIX c a' b) r) /\
                (runs E s (T_IF c a b) r <-> runs E s (T_IF c a' b) r)).
Proof.
  intros H.
  assert (U : forall z' s', int_value E s c (Ok z' s') -> z' = z /\ s' = s1).
  { intros z' s' H'. pose proof (int_value_fun _ _ _ _ _ H H') as X. injection X as -> ->. auto. }
  assert (N : forall o, int_value E s c o -> same_stop o r -> False).
  { intros o H' Ho. rewrite <- (int_value_fun _ _ _ _ _ H H') in Ho. destruct Ho. }
  assert (I : forall p q p' q', (holds z -> p = p') -> (~ holds z -> q = q') ->
    runs E s (T_INFIX c p q) r -> runs E s (T_INFIX c p' q') r).
  { intros p q p' q' Hp Hq R. apply cond_spec in R. apply cond_spec.
    destruct R as [(z' & s' & H' & R)|(o & H' & R)]; [|exfalso; eauto].
    destruct (U _ _ H') as [-> ->]. left. exists z, s1. split; auto.
    destruct R as [[Z R]|[Z R]].
    - rewrite <- Hp by exact Z. auto.
    - rewrite <- Hq by exact Z. auto. }
  assert (J : forall p q p' q', (holds z -> p = p') -> (~ holds z -> q = q') ->
    runs E s (T_IF c p q) r -> runs E s (T_IF c p' q') r).
  { intros p q p' q' Hp Hq R. apply if_spec in R. apply if_spec.
    destruct R as [(z' & s' & arm & H' & A & R)|(o & H' & R)]; [|exfalso; eauto].
    destruct (U _ _ H') as [-> ->]. left. exists z, s1, arm. split; auto. split; auto.
    destruct A as [[Z ->]|[Z ->]]; [left|right]; auto. }
  split; intros Z; (split; split); first [apply I|apply J]; tauto.
Qed.

Lemma holds_in_range z : - 2 ^ 63 <= z < 2 ^ 63 -> (holds z <-> z <> 0).
Proof.
  intros Hz. unfold holds. split.
  - intros H ->. apply H. split; [lia|]. exists 0. reflexivity.
  - intros Hne [H0 [q Hq]]. destruct (Z.lt_total q 0) as [Hl|[->|Hl]]; nia.
Qed.

Lemma mismatch z : (z <> 0 /\ ~ holds z) <-> (0 < z /\ exists k, z = k * 2 ^ 63).
Proof.
  unfold holds. split.
  - intros [H1 H2]. assert (H3 : 0 <= z /\ exists k, z = k * 2 ^ 63).
    { destruct (Z_lt_le_dec z 0) as [Hl|Hl].
      - exfalso. apply H2. lia.
      - split; auto. pose proof (Z_div_mod_eq_full z (2 ^ 63)) as D.
        destruct (Z.eq_dec (z mod 2 ^ 63) 0) as [M|M].
        + exists (z / 2 ^ 63). lia.
        + exfalso. apply H2. intros [_ [k Hk]]. apply M. rewrite Hk. apply Z.mod_mul. lia. }
    split; [lia | tauto].
  - intros [H1 H2]. split; [lia|]. intros H. apply H. split; [lia|exact H2].
Qed.

Lemma int_value_const E s n : int_value E s (T_INTEGER n) (Ok n s).
Proof.
  left. exists (T_INTEGER n), s. split; [|reflexivity].
  apply (runs_intro E s _ _ 1%nat); [reflexivity|discriminate].
Qed.

Lemma int_value_expr E rho e s z :
  (forall x, mentions e x -> number E s (lookup s x) (rho x)) -> denote rho e = Some z ->
  exists s1, int_value E s (syntax e) (Ok z s1) /\ only_gc E s s1.
Proof.
  intros He Hz. destruct (expr_correct E rho e s He) as (s1 & G1 & R). rewrite Hz in R.
  destruct R as (v & R & N). destruct (int_value_number E _ _ _ _ _ R N) as (s2 & I & G2).
  exists s2. split; auto. eapply gc_only_trans; eauto.
Qed.

Lemma truth E rho e s z :
  (forall x, mentions e x -> number E s (lookup s x) (rho x)) -> denote rho e = Some z ->
  (exists s1, runs E s (T_NEGATE (syntax e)) (Ok (T_INTEGER (b2z (z =? 0))) s1)) /\
  (exists s1, runs E s (T_L_AND (syntax e) (T_INTEGER 1)) (Ok (T_INTEGER (b2z (negb (z =? 0)))) s1)) /\
  (exists s1, runs E s (T_L_OR (syntax e) (T_INTEGER 0)) (Ok (T_INTEGER (b2z (negb (z =? 0)))) s1)) /\
  (exists s1, int_value E s (syntax e) (Ok z s1) /\ only_gc E s s1 /\
     forall a b arm, (holds z /\ arm = a \/ ~ holds z /\ arm = b) ->
       (forall r, runs E s (T_INFIX (syntax e) a b) r <-> runs E s1 arm r) /\
       (forall s2, runs_body E (open_scope E "If statement" s1) arm (Ok tt s2) ->
                   runs E s (T_IF (syntax e) a b) (close_scope NULL s2))).
Proof.
  intros He Hz. destruct (int_value_expr E rho e s z He Hz) as (s2 & I & G).
  split; [|split; [|split]].
  - destruct (expr_correct E rho e (after_tick E s)) as (s1 & G1 & R).
    { eapply good_env_gc; [apply gc_only_tick|exact He]. }
    rewrite Hz in R. destruct R as (v & R & N). destruct (run_not E _ _ _ _ _ R N) as (s3 & _ & X). eauto.
  - destruct (Z.eqb_spec z 0) as [->|Hn].
    + eexists. apply and_spec. left. exists s2. split; [exact I|reflexivity].
    + eexists. apply and_spec. right. left. exists z, s2, 1, s2.
      split; [exact I|]. split; [assumption|]. split; [apply int_value_const|reflexivity].
  - destruct (Z.eqb_spec z 0) as [->|Hn].
    + eexists. apply or_spec. right. left. exists s2, 0, s2.
      split; [exact I|]. split; [apply int_value_const|reflexivity].
    + eexists. apply or_spec. left. exists z, s2. split; [exact I|split; [assumption|reflexivity]].
  - exists s2. split; [exact I|]. split; [exact G|]. intros a b arm Harm. split.
    + intros r. rewrite cond_spec. split.
      * intros [(z' & s' & H' & Q)|(o & H' & Q)].
        -- pose proof (int_value_fun _ _ _ _ _ I H') as X. injection X as -> ->.
           destruct Harm as [[A ->]|[A ->]], Q as [[B Q]|[B Q]]; tauto.
        -- rewrite <- (int_value_fun _ _ _ _ _ I H') in Q. destruct Q.
      * intros Q. left. exists z, s2. split; [exact I|]. destruct Harm as [[A ->]|[A ->]]; auto.
    + intros s3 Q. apply if_spec. left. exists z, s2, arm. split; [exact I|]. split; [exact Harm|].
      left. exists s3. auto.
Qed.
