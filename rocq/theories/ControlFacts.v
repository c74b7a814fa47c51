(** Conditions, if and loops. *)
From Coq Require Import ZArith List String Bool Lia.
From Verif Require Import CInt CIntFacts Tree SpecResolver State Eval StepsFacts MonoFacts EvalInv
  SpecScope ScopeFacts SpecRun SpecExpr SpecControl RunFacts RunRules ExprFacts.
Import ListNotations.
Local Open Scope Z_scope.
Local Open Scope m_scope.

Lemma same_stop_recast A B (o : res A) (r : res B) : same_stop o r <-> stops o /\ o <> Fuel /\ r = recast o.
Proof.
  split.
  - intros H. destruct o, r; cbn in H; try contradiction;
      (split; [intros ? ?; discriminate|]; split; [discriminate|]); cbn; try congruence.
    all: destruct H; congruence.
  - intros (H1 & H2 & ->). destruct o; cbn; auto.
    + exfalso; eapply H1; reflexivity.
Qed.

Lemma same_stop_stops A B (o : res A) (r : res B) : same_stop o r -> stops r /\ r <> Fuel.
Proof.
  intros H. apply same_stop_recast in H. destruct H as (H1 & H2 & ->).
  split; [apply stops_recast | apply recast_fuel, H2].
Qed.

Lemma same_stop_self A (o : res A) : stops o -> o <> Fuel -> same_stop o o.
Proof.
  intros H1 H2. apply same_stop_recast. repeat split; auto. symmetry. apply recast_id, H1.
Qed.

Lemma stops_dec A (o : res A) : (exists a s, o = Ok a s) \/ stops o.
Proof. destruct o; eauto; right; intros ? ?; discriminate. Qed.

Lemma is_ok_stops A (o : res A) : is_ok o = false -> stops o.
Proof. intros H a s ->. discriminate. Qed.

(** Inversion of a bind at one depth. *)
Lemma bind_inv A B (m : M A) (f : A -> M B) s r : bind m f s = r -> r <> Fuel ->
  (exists a s1, m s = Ok a s1 /\ f a s1 = r) \/ (exists o, m s = o /\ same_stop o r).
Proof.
  unfold bind. intros H Hr. destruct (m s) eqn:Em; eauto; right; eexists; (split; [reflexivity|]);
    subst r; cbn; auto.
Qed.

Section Control.
Variable E : env.

Ltac lbind := eapply lim_bind.

Lemma lim_same_stop A B (f : knot -> M A) (g : knot -> A -> M B) s o r :
  lim E f s o -> same_stop o r -> lim E (fun k => bind (f k) (g k)) s r.
Proof.
  intros Hf H. apply same_stop_recast in H. destruct H as (H1 & H2 & ->).
  eapply lim_stop; eauto.
Qed.

(** ** Integer values *)

Lemma make_int_spec type a s :
  make_int_from_live_var E type a s = 
  match type with
  | NULL => UB
  | D_T c => if integer_type c
             then if valid (after_tick E s) a (width c)
                  then Ok (T_INTEGER (as_long (value_at (after_tick E s) c a))) (after_tick E s) else UB
             else Die (after_tick E s)
  | D_T_PTR _ => if valid (after_tick E s) a 8
                 then Ok (T_INTEGER (as_long (unsigned_at (mem (after_tick E s)) a 8))) (after_tick E s) else UB
  | _ => Die (after_tick E s)
  end.
Proof.
  unfold make_int_from_live_var. rewrite (bind_eq _ _ _ _ _ _ _ (tick_eq E s)).
  destruct type; try reflexivity.
  - change (integer_type c) with (is_intty c). change (width c) with (csize c). rewrite value_at_load. destruct (is_intty c) eqn:Hc; [|reflexivity]. unfold bind, load, ret.
    destruct (valid (after_tick E s) a (csize c)); [|reflexivity].
    rewrite as_long_smod by (apply conv_range64, Hc). reflexivity.
  - unfold bind, load, ret. destruct (valid (after_tick E s) a 8); [|reflexivity].
    rewrite as_long_smod; [reflexivity|]. pose proof (le_load_bound (mem (after_tick E s)) a (Z.to_nat 8)) as H.
    change (256 ^ Z.of_nat (Z.to_nat 8)) with (2 ^ 64) in H. lia.
Qed.

(** The conversion done by [convert_to_comparable_type] after the evaluation. *)
Definition to_int (e : tree) : M Z :=
  r <- match e with
       | NULL => ub
       | T_INTEGER _ => ret e
       | T_LIVE_VAR type a _ _ =>
           match type with
           | NULL => ub
           | D_T c => if is_intty c then make_int_from_live_var E type a else die
           | D_T_PTR _ => make_int_from_live_var E type a
           | _ => die
           end
       | _ => die
       end ;;
  match r with T_INTEGER z => ret z | _ => die end.

Lemma to_int_spec e s : to_int e s = as_integer E e s.
Proof.
  unfold to_int, as_integer. destruct e; try reflexivity.
  destruct e; try reflexivity.
  - change (integer_type c) with (is_intty c). destruct (is_intty c) eqn:Hc; [|reflexivity]. unfold bind.
    rewrite make_int_spec. change (integer_type c) with (is_intty c). rewrite Hc.
    destruct (valid _ _ _); reflexivity.
  - unfold bind. rewrite make_int_spec. destruct (valid _ _ _); reflexivity.
Qed.

Lemma comparable_bind t k s : comparable E k t s = bind (k_ev k t) to_int s.
Proof.
  unfold comparable, convert_to_comparable_type, to_int, bind. destruct (k_ev k t s); reflexivity.
Qed.

Lemma as_integer_fuel e s : as_integer E e s <> Fuel.
Proof.
  unfold as_integer. destruct e; try discriminate. destruct e; try discriminate.
  - destruct (integer_type c); [|discriminate]. destruct (valid _ _ _); discriminate.
  - destruct (valid _ _ _); discriminate.
Qed.

Lemma int_value_lim s t r : int_value E s t r <-> r <> Fuel /\ lim E (fun k => comparable E k t) s r.
Proof.
  split.
  - intros [(v & s1 & H1 & ->)|(o & H1 & H2)].
    + split; [apply as_integer_fuel|].
      apply (lim_ext E _ _ (fun k => bind (k_ev k t) to_int)); [intros k; apply comparable_bind|]. lbind; [apply lim_ev, H1|].
      apply lim_pure, to_int_spec.
    + split; [eapply same_stop_stops; eauto|].
      apply (lim_ext E _ _ (fun k => bind (k_ev k t) to_int)); [intros k; apply comparable_bind|].
      eapply lim_same_stop; [apply lim_ev, H1 | exact H2].
  - intros [Hr H].
    assert (H' : lim E (fun k => bind (k_ev k t) to_int) s r).
    { eapply lim_ext; [|exact H]. intros k. symmetry. apply comparable_bind. }
    destruct (lim_bind_inv E _ _ _ _ _ _ (kmono_ev E t) Hr H') as [(v & s1 & H1 & H2)|(o & H1 & H2 & H3 & H4)].
    + left. exists v, s1. split; [apply lim_ev_runs; auto; discriminate|].
      apply lim_const_inv in H2. rewrite <- H2. apply to_int_spec.
    + right. exists o. split; [apply lim_ev_runs; auto|]. apply same_stop_recast.
      split; [apply is_ok_stops, H2|]. auto.
Qed.

Lemma int_value_number s t v s1 z : runs E s t (Ok v s1) -> number E s1 v z ->
  exists s2, int_value E s t (Ok z s2) /\ only_gc E s1 s2.
Proof.
  intros H1 H2. destruct (comparable_number _ _ _ _ _ _ H1 H2) as (s2 & H3 & G).
  exists s2. split; auto. apply int_value_lim. split; [discriminate|auto].
Qed.

Lemma int_value_fun s t r r' : int_value E s t r -> int_value E s t r' -> r = r'.
Proof. rewrite !int_value_lim. intros [_ H1] [_ H2]. eapply lim_fun; eauto. Qed.

(** Using an integer value in a sequence, both ways. *)
Lemma lim_int_bind B (g : knot -> Z -> M B) s t r : r <> Fuel ->
  lim E (fun k => bind (comparable E k t) (g k)) s r <->
  (exists z s1, int_value E s t (Ok z s1) /\ lim E (fun k => g k z) s1 r) \/
  (exists o, int_value E s t o /\ same_stop o r).
Proof.
  intros Hr. split.
  - intros H. destruct (lim_bind_inv E _ _ _ _ _ _ (kmono_comparable E t) Hr H)
      as [(v & s1 & H1 & H2)|(o & H1 & H2 & H3 & H4)].
    + left. exists v, s1. split; auto. apply int_value_lim. split; [discriminate|auto].
    + right. exists o. split; [apply int_value_lim; auto|]. apply same_stop_recast.
      split; [apply is_ok_stops, H2|]. auto.
  - intros [(z & s1 & H1 & H2)|(o & H1 & H2)].
    + apply int_value_lim in H1. lbind; [apply H1 | exact H2].
    + apply int_value_lim in H1. eapply lim_same_stop; [apply H1 | exact H2].
Qed.

(** ** Logical operators *)

Lemma and_spec s a b r :
  runs E s (T_L_AND a b) r <->
  (exists s1, int_value E s a (Ok 0 s1) /\ r = Ok (T_INTEGER 0) (after_tick E s1)) \/
  (exists x s1 y s2, int_value E s a (Ok x s1) /\ x <> 0 /\ int_value E s1 b (Ok y s2) /\
     r = Ok (T_INTEGER (b2z (negb (y =? 0)))) (after_tick E s2)) \/
  (exists o, int_value E s a o /\ same_stop o r) \/
  (exists x s1 o, int_value E s a (Ok x s1) /\ x <> 0 /\ int_value E s1 b o /\ same_stop o r).
Proof.
  split.
  - intros H. pose proof (proj1 H) as Hr. apply runs_lim in H. cbn [evaluate_1] in H. unfold eval_logic_and in H.
    apply lim_int_bind in H; [|exact Hr]. destruct H as [(x & s1 & H1 & H)|(o & H1 & H)]; [|right; right; left; eauto].
    destruct (Z.eqb_spec x 0) as [->|Hx].
    + left. exists s1. split; auto. apply lim_const_inv in H. symmetry. exact H.
    + apply lim_int_bind in H; [|exact Hr]. destruct H as [(y & s2 & H2 & H)|(o & H2 & H)].
      * right; left. exists x, s1, y, s2. repeat split; auto. apply lim_const_inv in H. symmetry.
        destruct (y =? 0); exact H.
      * right; right; right. eauto 7.
  - intros [(s1 & H1 & ->)|[(x & s1 & y & s2 & H1 & Hx & H2 & ->)|[(o & H1 & H2)|(x & s1 & o & H1 & Hx & H2 & H3)]]];
      apply lim_runs; try discriminate; try (eapply same_stop_stops; eauto; fail); cbn [evaluate_1]; unfold eval_logic_and;
      (apply lim_int_bind; [try discriminate; try (eapply same_stop_stops; eauto; fail)|]).
    + left. exists 0, s1. split; auto. apply lim_const. reflexivity.
    + left. exists x, s1. split; auto. destruct (Z.eqb_spec x 0); [contradiction|].
      apply lim_int_bind; [discriminate|]. left. exists y, s2. split; auto. apply lim_pure.
      destruct (y =? 0); reflexivity.
    + right. eauto.
    + left. exists x, s1. split; auto. destruct (Z.eqb_spec x 0); [contradiction|].
      apply lim_int_bind; [eapply same_stop_stops; eauto|]. right. eauto.
Qed.

Lemma or_spec s a b r :
  runs E s (T_L_OR a b) r <->
  (exists x s1, int_value E s a (Ok x s1) /\ x <> 0 /\ r = Ok (T_INTEGER 1) (after_tick E s1)) \/
  (exists s1 y s2, int_value E s a (Ok 0 s1) /\ int_value E s1 b (Ok y s2) /\
     r = Ok (T_INTEGER (b2z (negb (y =? 0)))) (after_tick E s2)) \/
  (exists o, int_value E s a o /\ same_stop o r) \/
  (exists s1 o, int_value E s a (Ok 0 s1) /\ int_value E s1 b o /\ same_stop o r).
Proof.
  split.
  - intros H. pose proof (proj1 H) as Hr. apply runs_lim in H. cbn [evaluate_1] in H. unfold eval_logic_or in H.
    apply lim_int_bind in H; [|exact Hr]. destruct H as [(x & s1 & H1 & H)|(o & H1 & H)]; [|right; right; left; eauto].
    destruct (Z.eqb_spec x 0) as [->|Hx]; cbn [negb] in H.
    + apply lim_int_bind in H; [|exact Hr]. destruct H as [(y & s2 & H2 & H)|(o & H2 & H)].
      * right; left. exists s1, y, s2. repeat split; auto. apply lim_const_inv in H. symmetry.
        destruct (y =? 0); exact H.
      * right; right; right. eauto 7.
    + left. exists x, s1. repeat split; auto. apply lim_const_inv in H. symmetry. exact H.
  - intros [(x & s1 & H1 & Hx & ->)|[(s1 & y & s2 & H1 & H2 & ->)|[(o & H1 & H2)|(s1 & o & H1 & H2 & H3)]]];
      apply lim_runs; try discriminate; try (eapply same_stop_stops; eauto; fail); cbn [evaluate_1]; unfold eval_logic_or;
      (apply lim_int_bind; [try discriminate; try (eapply same_stop_stops; eauto; fail)|]).
    + left. exists x, s1. split; auto. destruct (Z.eqb_spec x 0); [contradiction|]. apply lim_const. reflexivity.
    + left. exists 0, s1. split; auto. cbn [Z.eqb negb].
      apply lim_int_bind; [discriminate|]. left. exists y, s2. split; auto. apply lim_pure.
      destruct (y =? 0); reflexivity.
    + right. eauto.
    + left. exists 0, s1. split; auto. cbn [Z.eqb negb].
      apply lim_int_bind; [eapply same_stop_stops; eauto|]. right. eauto.
Qed.

(** ** Conditional expression and if *)

Lemma truthy_holds z : truthy z = true <-> holds z.
Proof. rewrite truthy_test. apply test_holds. Qed.
Lemma truthy_not_holds z : truthy z = false <-> ~ holds z.
Proof. rewrite <- truthy_holds. destruct (truthy z); split; congruence. Qed.

Lemma cond_spec s c a b r :
  runs E s (T_INFIX c a b) r <->
  (exists z s1, int_value E s c (Ok z s1) /\ (holds z /\ runs E s1 a r \/ ~ holds z /\ runs E s1 b r)) \/
  (exists o, int_value E s c o /\ same_stop o r).
Proof.
  split.
  - intros H. pose proof (proj1 H) as Hr. apply runs_lim in H. cbn [evaluate_1] in H. unfold eval_infix in H.
    apply lim_int_bind in H; [|exact Hr]. destruct H as [(z & s1 & H1 & H)|(o & H1 & H)]; [|right; eauto].
    left. exists z, s1. split; auto. destruct (truthy z) eqn:Hz.
    + left. split; [apply truthy_holds, Hz | apply lim_ev_runs; auto].
    + right. split; [apply truthy_not_holds, Hz | apply lim_ev_runs; auto].
  - intros H. assert (Hr : r <> Fuel).
    { destruct H as [(z & s1 & H1 & [[_ H]|[_ H]])|(o & H1 & H)]; try apply H. eapply same_stop_stops; eauto. }
    apply lim_runs; auto. cbn [evaluate_1]. unfold eval_infix. apply lim_int_bind; auto.
    destruct H as [(z & s1 & H1 & H)|(o & H1 & H)]; [left|right; eauto].
    exists z, s1. split; auto. destruct H as [[Hz H]|[Hz H]].
    + apply truthy_holds in Hz. rewrite Hz. apply lim_ev, H.
    + apply truthy_not_holds in Hz. rewrite Hz. apply lim_ev, H.
Qed.

(** Running a body, then something else. *)
Lemma lim_body_bind B (g : knot -> unit -> M B) s t r : r <> Fuel ->
  lim E (fun k => bind (evaluate_stmts E k t) (g k)) s r <->
  (exists s1, runs_body E s t (Ok tt s1) /\ lim E (fun k => g k tt) s1 r) \/
  (exists o, runs_body E s t o /\ same_stop o r).
Proof.
  intros Hr. split.
  - intros H. destruct (lim_bind_inv E _ _ _ _ _ _ (kmono_stmts E t) Hr H)
      as [([] & s1 & H1 & H2)|(o & H1 & H2 & H3 & H4)].
    + left. exists s1. split; auto. apply lim_body; auto. discriminate.
    + right. exists o. split; [apply lim_body; auto|]. apply same_stop_recast.
      split; [apply is_ok_stops, H2|]. auto.
  - intros [(s1 & H1 & H2)|(o & H1 & H2)].
    + lbind; [apply lim_stmts, H1 | exact H2].
    + eapply lim_same_stop; [apply lim_stmts, H1 | exact H2].
Qed.

Lemma push_open name s : push_ctx E name s = Ok tt (open_scope E name s).
Proof. reflexivity. Qed.

Lemma pop_close s A (v : A) : bind pop_ctx (fun _ => ret v) s = close_scope v s.
Proof. unfold bind, pop_ctx, close_scope. destruct (stack s) as [|c [|c' cs]]; reflexivity. Qed.

Lemma close_scope_fuel A (v : A) s : close_scope v s <> Fuel.
Proof. unfold close_scope. destruct (stack s) as [|c [|c' cs]]; discriminate. Qed.

Lemma if_spec s c a b r :
  runs E s (T_IF c a b) r <->
  (exists z s1 arm, int_value E s c (Ok z s1) /\ (holds z /\ arm = a \/ ~ holds z /\ arm = b) /\
     ((exists s2, runs_body E (open_scope E "If statement" s1) arm (Ok tt s2) /\ r = close_scope NULL s2) \/
      (exists o, runs_body E (open_scope E "If statement" s1) arm o /\ same_stop o r))) \/
  (exists o, int_value E s c o /\ same_stop o r).
Proof.
  split.
  - intros H. pose proof (proj1 H) as Hr. apply runs_lim in H. cbn [evaluate_1] in H. unfold eval_if in H.
    apply lim_int_bind in H; [|exact Hr]. destruct H as [(z & s1 & H1 & H)|(o & H1 & H)]; [|right; eauto].
    left. exists z, s1, (if truthy z then a else b). split; auto. split.
    { destruct (truthy z) eqn:Hz; [left; split; auto; apply truthy_holds, Hz | right; split; auto; apply truthy_not_holds, Hz]. }
    assert (H' : lim E (fun k => push_ctx E "If statement";; evaluate_stmts E k (if truthy z then a else b);; pop_ctx;; ret NULL) s1 r).
    { eapply lim_ext; [|exact H]. intros k. destruct (truthy z); reflexivity. }
    clear H.
    destruct (lim_bind_inv E _ _ _ _ _ _ (kmono_const E _ _) Hr H') as [([] & s2 & H2 & H3)|(o & H2 & H3 & _)].
    2: { apply lim_const_inv in H2. rewrite push_open in H2. subst o. discriminate. }
    apply lim_const_inv in H2. rewrite push_open in H2. injection H2 as <-.
    apply lim_body_bind in H3; auto. destruct H3 as [(s2 & H3 & H4)|(o & H3 & H4)].
    + left. exists s2. split; auto. apply lim_const_inv in H4. rewrite pop_close in H4. auto.
    + right. eauto.
  - intros [(z & s1 & arm & H1 & Harm & H)|(o & H1 & H)].
    2: { apply lim_runs; [eapply same_stop_stops; eauto|]. cbn [evaluate_1]. unfold eval_if.
         apply lim_int_bind; [eapply same_stop_stops; eauto|]. right; eauto. }
    assert (Hr : r <> Fuel).
    { destruct H as [(s2 & _ & ->)|(o & _ & H)]; [apply close_scope_fuel | eapply same_stop_stops; eauto]. }
    apply lim_runs; auto. cbn [evaluate_1]. unfold eval_if. apply lim_int_bind; auto.
    left. exists z, s1. split; auto.
    assert (Harm' : arm = if truthy z then a else b).
    { destruct Harm as [[Hz ->]|[Hz ->]]; [apply truthy_holds in Hz | apply truthy_not_holds in Hz]; rewrite Hz; reflexivity. }
    assert (H' : lim E (fun k => push_ctx E "If statement";; evaluate_stmts E k arm;; pop_ctx;; ret NULL) s1 r).
    { lbind; [apply lim_pure, push_open|]. apply lim_body_bind; auto.
      destruct H as [(s2 & H2 & H3)|(o & H2 & H3)]; [left | right; eauto].
      exists s2. split; auto. apply lim_pure. rewrite pop_close. auto. }
    subst arm. eapply lim_ext; [|exact H']. intros k. destruct (truthy z); reflexivity.
Qed.

(** ** Loops *)

Lemma ev_at_runs n s t o : k_ev (K E n) t s = o -> o <> Fuel -> runs E s t o.
Proof. intros H Ho. eapply runs_intro; eauto. Qed.
Lemma body_at_runs n s t o : evaluate_stmts E (K E n) t s = o -> o <> Fuel -> runs_body E s t o.
Proof. intros H Ho. split; eauto. Qed.
Lemma int_at n s t o : comparable E (K E n) t s = o -> o <> Fuel -> int_value E s t o.
Proof. intros H Ho. apply int_value_lim. split; auto. eapply kmono_lim; eauto. apply kmono_comparable. Qed.

Lemma same_stop_nofuel A B (o : res A) (r : res B) : same_stop o r -> o <> Fuel.
Proof. intros H. apply same_stop_recast in H. tauto. Qed.

Lemma loop_fuel name c b (st : state -> res tree -> Prop) s r : (forall s o, st s o -> o <> Fuel) -> loop E name c b st s r -> r <> Fuel.
Proof.
  intros Hst H. induction H; try discriminate; eauto.
  - eapply same_stop_stops; eauto.
  - eapply same_stop_stops; eauto.
  - subst r. apply close_scope_fuel.
Qed.

(** What loops do after the initialiser; [step] and [again] are the continuation. *)
Definition iterate (k : knot) (name : string) (c b : tree) (step again : M tree) : M tree :=
  v <- k_ev k c ;;
  z <- comparable E k v ;;
  if negb (truthy z) then ret NULL else
  (push_ctx E name ;;
   evaluate_stmts E k b ;;
   cx <- top ;;
   if c_break cx then ret NULL else
   (pop_ctx ;; step ;; again)).

Lemma broke_top s : broke s <-> exists c cs, stack s = c :: cs /\ c_break c = true.
Proof. reflexivity. Qed.

(** From a computation at some depth to the relation. *)
Lemma iterate_loop n name c b (st : state -> res tree -> Prop) (step again : M tree) s r :
  (forall s o, step s = o -> o <> Fuel -> st s o) ->
  (forall s, again s = r -> r <> Fuel -> loop E name c b st s r) ->
  iterate (K E n) name c b step again s = r -> r <> Fuel -> loop E name c b st s r.
Proof.
  intros Hst Hag H Hr. unfold iterate in H.
  apply bind_inv in H; auto. destruct H as [(v & s1 & H1 & H)|(o & H1 & H)].
  2: { eapply loop_cond_stops with (o := recast o).
       - right. exists o. split; [eapply ev_at_runs; eauto; eapply same_stop_nofuel; eauto|].
         apply same_stop_recast in H. apply same_stop_recast. tauto.
       - apply same_stop_recast in H. destruct H as (H2 & H3 & ->).
         destruct o; cbn; auto; exfalso; eapply H2; reflexivity. }
  assert (R1 : runs E s c (Ok v s1)) by (eapply ev_at_runs; eauto; discriminate).
  apply bind_inv in H; auto. destruct H as [(z & s2 & H2 & H)|(o & H2 & H)].
  2: { eapply loop_cond_stops; [|exact H]. left. exists v, s1. split; auto.
       eapply int_at; eauto. eapply same_stop_nofuel; eauto. }
  assert (R2 : loop_cond E s c (Ok z s2)).
  { left. exists v, s1. split; auto. eapply int_at; eauto. discriminate. }
  destruct (truthy z) eqn:Hz; cbn [negb] in H.
  2: { unfold ret in H. subst r. apply loop_done with z; auto. apply truthy_not_holds, Hz. }
  apply truthy_holds in Hz. rewrite (bind_eq _ _ _ _ _ _ _ (push_open name s2)) in H.
  apply bind_inv in H; auto. destruct H as [([] & s3 & H3 & H)|(o & H3 & H)].
  2: { eapply loop_body_stops; eauto. eapply body_at_runs; eauto. eapply same_stop_nofuel; eauto. }
  assert (R3 : runs_body E (open_scope E name s2) b (Ok tt s3)).
  { eapply body_at_runs; eauto. discriminate. }
  unfold bind at 1, top at 1 in H. destruct (stack s3) as [|cx cs] eqn:Hs3.
  { subst r. eapply loop_no_scope; eauto.
    - intros (cx & cs & Hx & _). congruence.
    - unfold close_scope. rewrite Hs3. reflexivity.
    - intros ? ?; discriminate. }
  destruct (c_break cx) eqn:Hb.
  { unfold ret in H. subst r. eapply loop_break; eauto. exists cx, cs. auto. }
  assert (Hnb : ~ broke s3).
  { intros (d & ds & Hx & Hd). congruence. }
  unfold bind at 1, pop_ctx in H. rewrite Hs3 in H. destruct cs as [|cx' cs].
  { subst r. eapply loop_no_scope; eauto.
    - unfold close_scope. rewrite Hs3. reflexivity.
    - intros ? ?; discriminate. }
  set (s4 := set_stack (fun _ => cx' :: cs) s3) in *.
  assert (R4 : close_scope tt s3 = Ok tt s4) by (unfold close_scope; rewrite Hs3; reflexivity).
  apply bind_inv in H; auto. destruct H as [(w & s5 & H5 & H)|(o & H5 & H)].
  - eapply loop_next; eauto. apply Hst; eauto. discriminate.
  - assert (Ho : o = r).
    { apply same_stop_recast in H. destruct H as (Hx & _ & ->). symmetry. apply recast_id, Hx. }
    subst o. eapply loop_step_stops; eauto. 
    eapply same_stop_stops; eauto.
Qed.

(** From the relation to the limit. *)
Lemma loop_iterate name c b (st : state -> res tree -> Prop) (step again : knot -> M tree) s r :
  (forall s o, st s o -> lim E step s o) ->
  (forall s, lim E (fun k => iterate k name c b (step k) (again k)) s r -> lim E again s r) ->
  loop E name c b st s r -> lim E (fun k => iterate k name c b (step k) (again k)) s r.
Proof.
  intros Hst Hag H.
  assert (Hcond : forall s z s1 r (g : knot -> Z -> M tree), loop_cond E s c (Ok z s1) ->
    lim E (fun k => g k z) s1 r ->
    lim E (fun k => v <- k_ev k c ;; z <- comparable E k v ;; g k z) s r).
  { intros t z t1 q g [(v & t2 & H1 & H2)|(o & H1 & H2)] H3.
    - lbind; [apply lim_ev, H1|]. apply int_value_lim in H2. lbind; [apply H2 | exact H3].
    - destruct o; contradiction. }
  assert (Hbody : forall s z s1 s2 r (g : knot -> M tree), loop_cond E s c (Ok z s1) -> holds z ->
    runs_body E (open_scope E name s1) b (Ok tt s2) -> lim E g s2 r ->
    lim E (fun k => v <- k_ev k c ;; z <- comparable E k v ;;
      if negb (truthy z) then ret NULL else push_ctx E name ;; evaluate_stmts E k b ;; g k) s r).
  { intros t z t1 t2 q g H1 H2 H3 H4. 
    apply (Hcond t z t1 q (fun k z => if negb (truthy z) then ret NULL else push_ctx E name ;; evaluate_stmts E k b ;; g k)); auto.
    apply truthy_holds in H2. rewrite H2. cbn [negb].
    lbind; [apply lim_pure, push_open|]. lbind; [apply lim_stmts, H3 | exact H4]. }
  unfold iterate. induction H.
  - (* condition stops *)
    destruct H as [(v & s1 & H1 & H2)|(o' & H1 & H2)].
    + lbind; [apply lim_ev, H1|]. apply int_value_lim in H2. eapply lim_same_stop; [apply H2 | exact H0].
    + eapply lim_same_stop; [apply lim_ev, H1|].
      apply same_stop_recast in H2, H0. destruct H2 as (A1 & A2 & ->), H0 as (A3 & A4 & ->).
      destruct o'; cbn; auto. exfalso; eapply A1; reflexivity.
  - apply (Hcond s z s1 _ (fun k z => if negb (truthy z) then ret NULL else push_ctx E name ;; evaluate_stmts E k b ;;
      cx <- top ;; if c_break cx then ret NULL else (pop_ctx ;; step k ;; again k))); auto.
    apply truthy_not_holds in H0. rewrite H0. cbn [negb]. apply lim_pure. reflexivity.
  - apply (Hcond s z s1 _ (fun k z => if negb (truthy z) then ret NULL else push_ctx E name ;; evaluate_stmts E k b ;;
      cx <- top ;; if c_break cx then ret NULL else (pop_ctx ;; step k ;; again k))); auto.
    apply truthy_holds in H0. rewrite H0. cbn [negb]. lbind; [apply lim_pure, push_open|].
    eapply lim_same_stop; [apply lim_stmts, H1 | exact H2].
  - eapply Hbody; eauto. destruct H2 as (cx & cs & H2 & H3).
    apply lim_const. intros k. unfold bind, top. rewrite H2, H3. reflexivity.
  - eapply Hbody; eauto. apply lim_const. intros k. unfold bind, top.
    destruct (stack s2) as [|cx cs] eqn:Hs; [unfold close_scope in H3; rewrite Hs in H3; exact H3|].
    destruct (c_break cx) eqn:Hb; [exfalso; apply H2; exists cx, cs; auto|].
    unfold close_scope in H3. unfold pop_ctx. rewrite Hs in H3 |- *.
    destruct cs; [exact H3 | subst r; exfalso; eapply H4; reflexivity].
  - eapply Hbody; eauto. eapply lim_bind with (a := hd (mkctx 0 "" [] [] [] [] NULL false false) (stack s2)) (s1 := s2).
    { apply lim_pure. unfold top. unfold close_scope in H3. destruct (stack s2); [discriminate | reflexivity]. }
    unfold close_scope in H3. destruct (stack s2) as [|cx [|cx' cs]] eqn:Hs; try discriminate. cbn [hd].
    destruct (c_break cx) eqn:Hb; [exfalso; apply H2; exists cx, (cx' :: cs); auto|].
    lbind; [apply lim_pure; unfold pop_ctx; rewrite Hs; reflexivity|]. injection H3 as H3. rewrite H3.
    eapply lim_stop; [apply Hst; exact H4 | exact H5 |]. symmetry. apply recast_id, H5.
  - eapply Hbody; eauto. eapply lim_bind with (a := hd (mkctx 0 "" [] [] [] [] NULL false false) (stack s2)) (s1 := s2).
    { apply lim_pure. unfold top. unfold close_scope in H3. destruct (stack s2); [discriminate | reflexivity]. }
    unfold close_scope in H3. destruct (stack s2) as [|cx [|cx' cs]] eqn:Hs; try discriminate. cbn [hd].
    destruct (c_break cx) eqn:Hb; [exfalso; apply H2; exists cx, (cx' :: cs); auto|].
    lbind; [apply lim_pure; unfold pop_ctx; rewrite Hs; reflexivity|]. injection H3 as H3. rewrite H3.
    lbind; [apply Hst; exact H4|]. apply Hag. apply IHloop. exact Hag.
Qed.

Lemma while_iterate k c b s :
  evaluate_1 E k (T_LOOP_WHILE c b) s = iterate k "While Loop" c b (ret NULL) (k_ev k (T_LOOP_WHILE c b)) s.
Proof. reflexivity. Qed.

Lemma while_spec s c b r : runs E s (T_LOOP_WHILE c b) r <-> loop E "While Loop" c b no_step s r.
Proof.
  split.
  - intros [Hr [n H]]. unfold evaluate_expr in H. revert s r Hr H. induction n; intros s r Hr H.
    + cbn in H. unfold out_of_fuel in H. congruence.
    + cbn [K k_ev] in H. rewrite while_iterate in H. 
      eapply (iterate_loop n "While Loop" c b no_step (ret NULL) (k_ev (K E n) (T_LOOP_WHILE c b))); eauto.
      intros s1 o Ho _. symmetry. exact Ho.
  - intros H. apply lim_runs.
    { eapply loop_fuel; [|exact H]. intros s1 o ->. discriminate. }
    apply (loop_iterate "While Loop" c b no_step (fun _ => ret NULL) (fun k => k_ev k (T_LOOP_WHILE c b))) in H; auto.
    + intros s1 o ->. apply lim_pure. reflexivity.
    + intros s1 H1. apply lim_eval1. exact H1.
Qed.

Lemma for_iterate k c a b s :
  evaluate_1 E k (T_LOOP_FOR NULL c a b) s =
  bind (k_ev k NULL) (fun _ => iterate k "For Loop" c b (k_ev k a) (k_ev k (T_LOOP_FOR NULL c a b))) s.
Proof. reflexivity. Qed.

Lemma for_loop_spec n s c a b r : r <> Fuel ->
  iterate (K E n) "For Loop" c b (k_ev (K E n) a) (k_ev (K E n) (T_LOOP_FOR NULL c a b)) s = r ->
  loop E "For Loop" c b (fun s o => runs E s a o) s r.
Proof.
  revert s r. induction n; intros s r Hr H.
  - cbn in H. unfold bind, out_of_fuel in H. congruence.
  - eapply (iterate_loop (S n)); [| |exact H|exact Hr].
    + intros s1 o Ho Hf. eapply ev_at_runs; eauto.
    + intros s1 H1 _. change (evaluate_1 E (K E n) (T_LOOP_FOR NULL c a b) s1 = r) in H1.
      rewrite for_iterate in H1. destruct n; [cbn in H1; unfold bind, out_of_fuel in H1; congruence|].
      unfold bind at 1 in H1. cbn [K k_ev evaluate_1] in H1. unfold ret at 1 in H1.
      apply IHn; auto.
Qed.

Lemma for_spec s i c a b r : runs E s (T_LOOP_FOR i c a b) r <->
  (exists v s1, runs E s i (Ok v s1) /\ loop E "For Loop" c b (fun s o => runs E s a o) s1 r) \/
  (exists o, runs E s i o /\ same_stop o r).
Proof.
  split.
  - intros [Hr [n H]]. unfold evaluate_expr in H. destruct n; [cbn in H; unfold out_of_fuel in H; congruence|].
    cbn [K k_ev] in H. change (evaluate_1 E (K E n) (T_LOOP_FOR i c a b) s) with
      (bind (k_ev (K E n) i) (fun _ => iterate (K E n) "For Loop" c b (k_ev (K E n) a) (k_ev (K E n) (T_LOOP_FOR NULL c a b))) s) in H.
    apply bind_inv in H; auto. destruct H as [(v & s1 & H1 & H)|(o & H1 & H)].
    + left. exists v, s1. split; [eapply ev_at_runs; eauto; discriminate|]. eapply for_loop_spec; eauto.
    + right. exists o. split; auto. eapply ev_at_runs; eauto. eapply same_stop_nofuel; eauto.
  - intros [(v & s1 & H1 & H)|(o & H1 & H)].
    + apply lim_runs; [eapply loop_fuel; [|exact H]; intros ? ? Ho; apply Ho|].
      apply (lim_bind E _ _ (fun k => k_ev k i) (fun k _ => iterate k "For Loop" c b (k_ev k a) (k_ev k (T_LOOP_FOR NULL c a b))) _ v s1);
        [apply lim_ev, H1|].
      apply loop_iterate with (st := fun s o => runs E s a o); auto.
      * intros s2 o Ho. apply lim_ev, Ho.
      * intros s2 H2. apply lim_eval1.
        apply (lim_bind E _ _ (fun k => k_ev k NULL) (fun k _ => iterate k "For Loop" c b (k_ev k a) (k_ev k (T_LOOP_FOR NULL c a b))) _ NULL s2); [|exact H2].
        apply lim_eval1. apply lim_const. reflexivity.
    + apply lim_runs; [eapply same_stop_stops; eauto|].
      apply (lim_same_stop _ _ (fun k => k_ev k i) (fun k _ => iterate k "For Loop" c b (k_ev k a) (k_ev k (T_LOOP_FOR NULL c a b))) _ o); auto.
      apply lim_ev, H1.
Qed.

End Control.
