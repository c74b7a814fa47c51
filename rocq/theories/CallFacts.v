(** Calls of interpreted functions. *)
From Coq Require Import ZArith List String Bool Lia.
From Verif Require Import CInt CIntFacts Tree SpecResolver State Eval StepsFacts MonoFacts EvalInv
  SpecScope ScopeFacts SpecRun SpecExpr SpecControl SpecStmt RunFacts RunRules ExprFacts ControlFacts
  StmtFacts.
Import ListNotations.
Local Open Scope Z_scope.
Local Open Scope m_scope.

(** ** What lies below a function's scope does not change while it is active *)

Definition below (i : Z) (l : list ctx) (s : state) : Prop :=
  i < fresh s /\
  forall pre c post, stack s = pre ++ c :: post -> c_id c = i -> c_isfn c = true /\ post = l.

Lemma below_same i l s s' : stack s' = stack s -> fresh s <= fresh s' -> below i l s -> below i l s'.
Proof. intros H H1 [H2 H3]. split; [lia|]. rewrite H. exact H3. Qed.

Lemma below_top i l s f : (forall c, c_id (f c) = c_id c) -> (forall c, c_isfn c = true -> c_isfn (f c) = true) ->
  below i l s -> below i l (with_top f s).
Proof.
  intros H1 H2 [Hf H]. split; [exact Hf|]. intros pre c post Hs Hc. cbn in Hs.
  destruct (stack s) as [|d ds] eqn:Es; [destruct pre; discriminate|].
  destruct pre as [|e pre]; cbn in Hs; injection Hs as <- Hs.
  - rewrite H1 in Hc. destruct (H [] d ds eq_refl Hc) as [H3 H4]. subst. auto.
  - apply (H (d :: pre) c post); [subst; reflexivity | exact Hc].
Qed.

Lemma retval_split v : forall cs pre c post, set_retval v cs = pre ++ c :: post ->
  exists pre' c' post', cs = pre' ++ c' :: post' /\ c_id c' = c_id c /\ c_isfn c' = c_isfn c /\
    (c_isfn c' = true -> post' = post).
Proof.
  induction cs as [|d ds IH]; cbn; intros pre c post H; [destruct pre; discriminate|].
  destruct (c_isfn d) eqn:Hd.
  - destruct pre as [|e pre]; cbn in H; injection H as <- H.
    + subst. exists [], d, post. cbn. auto.
    + subst. exists (d :: pre), c, post. auto.
  - destruct pre as [|e pre]; cbn in H; injection H as <- H.
    + exists [], d, ds. cbn. repeat split; auto. congruence.
    + destruct (IH _ _ _ H) as (p & c' & q & -> & H1 & H2 & H3). exists (d :: p), c', q. auto.
Qed.

Lemma below_step E i l s s' : below i l s -> step E s s' -> below i l s'.
Proof.
  intros H Hst. destruct Hst;
    try (apply below_same with s; [reflexivity | cbn; lia | exact H]);
    try (apply below_top; [reflexivity | auto | exact H]).
  - (* push *) destruct H as [Hf H]. split; [cbn; lia|]. intros pre c post Hs Hc. cbn in Hs.
    destruct pre as [|d pre]; cbn in Hs; injection Hs as <- Hs; [cbn in Hc; lia|].
    apply (H pre c post); auto.
  - (* pop *) destruct H as [Hf H]. split; [exact Hf|]. intros pre d post Hs Hd. cbn in Hs.
    apply (H (c :: pre) d post); auto. rewrite H0, Hs. reflexivity.
  - (* map *) assert (Hw : below i l (with_top (c_set_idmap (fun m => m ++ [(x, t)])) s)) by (apply below_top; auto).
    eapply below_same; [| |exact Hw]; [|cbn; lia]. cbn. rewrite H0. reflexivity.
  - (* retval *) destruct H as [Hf H]. split; [exact Hf|]. intros pre c post Hs Hc. cbn in Hs.
    destruct (retval_split _ _ _ _ _ Hs) as (p & c' & q & Hq & H1 & H2 & H3).
    destruct (H p c' q Hq) as [H4 H5]; [congruence|]. split; [congruence|].
    rewrite <- H3; auto.
Qed.

Lemma below_steps E i l s s' : steps E s s' -> below i l s -> below i l s'.
Proof. intros Hs H. induction Hs; auto. eapply below_step; eauto. Qed.

(** ** The state at a return *)

Section Calls.
Variable E : env.

Lemma items_steps l s s' : items E l s s' -> steps E s s'.
Proof.
  induction 1; [apply steps_refl|]. eapply steps_trans; [|exact IHitems].
  eapply runs_steps; [exact H|reflexivity].
Qed.

Lemma int_value_steps s t r s' : int_value E s t r -> final r = Some s' -> steps E s s'.
Proof.
  intros H Hf. apply int_value_lim in H. destruct H as [_ [n H]].
  apply (ps_use E Z (comparable E (K E n) t)); [|rewrite (H n (le_n n)); exact Hf].
  apply psteps_comparable. apply K_steps.
Qed.

Lemma loop_cond_steps s t z s' : loop_cond E s t (Ok z s') -> steps E s s'.
Proof.
  intros [(v & s1 & H1 & H2)|(o & _ & H)]; [|destruct o; contradiction].
  eapply steps_trans; [eapply runs_steps; [exact H1|reflexivity]|].
  eapply int_value_steps; [exact H2|reflexivity].
Qed.

Lemma open_scope_steps name s : steps E s (open_scope E name s).
Proof. eapply steps_more; [apply steps_one, st_tick|]. apply st_push. Qed.

Lemma close_scope_steps A (v : A) s s' : close_scope v s = Ok v s' -> steps E s s'.
Proof.
  unfold close_scope. destruct (stack s) as [|c [|c' cs]] eqn:Hs; try discriminate.
  intros H. injection H as <-. apply steps_one. eapply st_pop. eassumption.
Qed.

Lemma return_steps s l e v s' : runs E s (T_RETURN l e) (Ok v s') -> steps E s s'.
Proof. intros H. eapply runs_steps; [exact H|reflexivity]. Qed.

Lemma returns_last s t i v s' : returns E s t i v s' ->
  exists s1, steps E s s1 /\ activation (stack s1) = Some i /\ s' = set_stack (give v) s1.
Proof.
  intros H. induction H using returns_mind with
    (P0 := fun s t i v s' _ => exists s1, steps E s s1 /\ activation (stack s1) = Some i /\ s' = set_stack (give v) s1).
  - exists s2. split; auto. eapply steps_trans; [eapply items_steps; eauto|]. eapply runs_steps; [eassumption|reflexivity].
  - destruct IHreturns as (q & Q1 & Q2 & Q3). exists q. split; auto.
    eapply steps_trans; [eapply items_steps; eauto|exact Q1].
  - destruct IHreturns as (q & Q1 & Q2 & Q3). exists q. split; auto.
    eapply steps_trans; [eapply int_value_steps; [eassumption|reflexivity]|].
    eapply steps_trans; [apply open_scope_steps|exact Q1].
  - destruct IHreturns as (q & Q1 & Q2 & Q3). exists q. split; auto.
    eapply steps_trans; [eapply loop_cond_steps; eassumption|].
    eapply steps_trans; [apply open_scope_steps|exact Q1].
  - destruct IHreturns as (q & Q1 & Q2 & Q3). exists q. split; auto.
    eapply steps_trans; [eapply loop_cond_steps; eassumption|].
    eapply steps_trans; [apply open_scope_steps|].
    eapply steps_trans; [eapply runs_body_steps; [eassumption|reflexivity]|].
    eapply steps_trans; [eapply close_scope_steps; eassumption|]. exact Q1.
  - destruct IHreturns as (q & Q1 & Q2 & Q3). exists q. split; auto.
    eapply steps_trans; [eapply runs_steps; [eassumption|reflexivity]|exact Q1].
  - destruct IHreturns as (q & Q1 & Q2 & Q3). exists q. split; auto.
    eapply steps_trans; [eapply loop_cond_steps; eassumption|].
    eapply steps_trans; [apply open_scope_steps|exact Q1].
  - destruct IHreturns as (q & Q1 & Q2 & Q3). exists q. split; auto.
    eapply steps_trans; [eapply loop_cond_steps; eassumption|].
    eapply steps_trans; [apply open_scope_steps|].
    eapply steps_trans; [eapply runs_body_steps; [eassumption|reflexivity]|].
    eapply steps_trans; [eapply close_scope_steps; eassumption|].
    eapply steps_trans; [eapply runs_steps; [eassumption|reflexivity]|]. exact Q1.
Qed.

(** ** The call *)

Lemma open_activation_steps name s : steps E s (open_activation E name s).
Proof.
  eapply steps_more; [eapply steps_more; [apply steps_one, st_tick|apply (st_push E _ name)]|].
  apply st_isfn.
Qed.

Lemma open_activation_ok name s :
  bind (push_ctx E name) (fun _ => upd_top (c_set_isfn true)) s = Ok tt (open_activation E name s).
Proof. reflexivity. Qed.

Lemma bind_params_lim ds xs s s' : params_bound E ds xs s s' ->
  List.length xs = List.length ds /\ lim E (fun k => bind_params E k ds xs) s (Ok tt s').
Proof.
  induction 1.
  - split; auto. apply lim_const. reflexivity.
  - destruct IHparams_bound as [IH1 IH2]. split; [cbn; congruence|]. cbn [bind_params].
    eapply lim_bind; [|exact IH2]. unfold bind_param.
    eapply lim_bind; [apply lim_ev; eassumption|].
    eapply lim_bind; [apply lim_ev; eassumption|].
    eapply lim_bind; [apply lim_const; intros k; apply tick_eq|].
    eapply lim_bind; [apply lim_const; reflexivity|].
    eapply lim_bind; [apply lim_ev; eassumption|]. apply lim_const. reflexivity.
Qed.

Lemma params_bound_steps ds xs s s' : params_bound E ds xs s s' -> steps E s s'.
Proof.
  induction 1; [apply steps_refl|].
  eapply steps_trans; [eapply runs_steps; [eassumption|reflexivity]|].
  eapply steps_trans; [eapply runs_steps; [eassumption|reflexivity]|].
  eapply steps_trans; [apply steps_one, st_tick|].
  eapply steps_trans; [apply steps_one, st_fresh|].
  eapply steps_trans; [eapply runs_steps; [eassumption|reflexivity]|]. exact IHparams_bound.
Qed.

Lemma entered_steps name params args s s' : entered E name params args s s' -> steps E s s'.
Proof.
  intros [[_ ->]|[_ H]]; [apply open_activation_steps|].
  eapply steps_trans; [apply open_activation_steps|]. eapply params_bound_steps; eauto.
Qed.

(** The part of the call after the function is known. *)
Lemma call_lim f args s name params rt body s1 r : r <> Fuel ->
  runs E s f (Ok (T_FN (T_IDENTIFIER name) params rt body) s1) -> body <> NULL ->
  lim E (fun k => call_defined E k (T_IDENTIFIER name) params body args) s1 r ->
  runs E s (T_FN_CALL f args) r.
Proof.
  intros Hr Hf Hb H. apply lim_runs; auto. cbn [evaluate_1]. unfold eval_fn_call.
  eapply lim_bind; [apply lim_ev; exact Hf|]. cbn beta iota.
  eapply lim_bind; [apply lim_const; reflexivity|]. cbn beta iota.
  destruct body; try congruence; exact H.
Qed.

Lemma call_enter name params body args s s2 c cs r :
  entered E name params args s s2 -> stack s2 = c :: cs ->
  lim E (fun k => catch (c_id c) (evaluate_stmts E k body) (fun _ => pop_ctx ;; ret NULL)
    (pop_until (fresh s) ;; c <- top ;; pop_ctx ;; ret (c_retval c))) s2 r ->
  lim E (fun k => call_defined E k (T_IDENTIFIER name) params body args) s r.
Proof.
  intros He Hs H. unfold call_defined.
  eapply lim_bind; [apply lim_const; reflexivity|]. cbn beta.
  eapply lim_bind; [apply lim_const; reflexivity|]. cbn beta.
  eapply lim_bind; [apply lim_const; reflexivity|]. cbn beta.
  eapply lim_bind; [apply lim_const; intros k; unfold top; cbn; reflexivity|]. cbn beta.
  eapply (lim_bind E _ _ (fun k => match params with NULL => ret tt
    | _ => if Nat.eqb (List.length (chain_elems args)) (List.length (chain_elems params))
           then bind_params E k (chain_elems params) (chain_elems args) else die end) _ _ tt s2).
  - destruct He as [[-> ->]|[Hp He]].
    + apply lim_const. reflexivity.
    + apply bind_params_lim in He. destruct He as [He1 He2].
      destruct params; try congruence; rewrite He1, Nat.eqb_refl; exact He2.
  - eapply lim_bind; [apply lim_const; intros k; unfold top; rewrite Hs; reflexivity|].
    exact H.
Qed.

Lemma below_open name s : ids_lt s -> below (fresh s) (stack s) (open_activation E name s).
Proof.
  intros Hs. split; [cbn; lia|]. intros pre c post Hst Hc. cbn in Hst.
  destruct pre as [|d pre]; cbn in Hst; injection Hst as <- Hst; [auto|].
  exfalso. unfold ids_lt in Hs. rewrite Hst in Hs. apply Forall_app in Hs as [_ Hs]. inversion Hs; lia.
Qed.

Lemma drop_activation i l : forall cs v, 
  (forall pre c post, cs = pre ++ c :: post -> c_id c = i -> c_isfn c = true /\ post = l) ->
  activation cs = Some i ->
  exists c, drop_until i (give v cs) = Some (c :: l) /\ c_retval c = v.
Proof.
  induction cs as [|c cs IH]; cbn; intros v H Ha; [discriminate|].
  destruct (c_isfn c) eqn:Hc.
  - injection Ha as Hi. cbn. rewrite (proj2 (Z.eqb_eq _ _) Hi).
    destruct (H [] c cs eq_refl Hi) as [_ ->]. eexists. split; [reflexivity|]. reflexivity.
  - cbn. destruct (Z.eqb_spec (c_id c) i) as [Hi|Hi].
    + destruct (H [] c cs eq_refl Hi) as [H1 _]. congruence.
    + apply IH; auto. intros pre d post Hp. apply (H (c :: pre) d post). rewrite Hp. reflexivity.
Qed.

(** A return for this activation ends the call. *)
Lemma call_returns s f args name params rt body s1 s2 v s3 : reachable E s ->
  runs E s f (Ok (T_FN (T_IDENTIFIER name) params rt body) s1) ->
  entered E name params args s1 s2 -> current s2 (fresh s1) ->
  returns E s2 body (fresh s1) v s3 ->
  runs E s (T_FN_CALL f args) (Ok v (set_stack (fun _ => stack s1) s3)).
Proof.
  intros Hr Hf He (c & cs & Hs2 & Hc) Hret.
  assert (Hr1 : reachable E s1) by (eapply reachable_runs; [eassumption|eassumption|reflexivity]).
  assert (Hb : body <> NULL) by (intros ->; inversion Hret).
  eapply call_lim; [discriminate|exact Hf|exact Hb|].
  eapply call_enter; [exact He|exact Hs2|]. rewrite Hc.
  eapply lim_catch_jmp.
  - apply lim_stmts. eapply returns_jump. exact Hret.
  - destruct (returns_last _ _ _ _ _ Hret) as (q & Q1 & Q2 & Q3).
    assert (Hbel : below (fresh s1) (stack s1) q).
    { eapply below_steps; [exact Q1|]. 
      destruct He as [[_ ->]|[_ He]]; [apply below_open, (reachable_ids_lt _ _ Hr1)|].
      eapply below_steps; [eapply params_bound_steps; exact He|]. apply below_open, (reachable_ids_lt _ _ Hr1). }
    destruct Hbel as [_ Hbel].
    destruct (drop_activation _ _ _ v Hbel Q2) as (d & D1 & D2).
    apply lim_const. intros _. unfold bind at 1, pop_until. rewrite Q3. cbn [stack set_stack]. rewrite D1.
    unfold bind, top, pop_ctx. cbn [stack set_stack].
    pose proof (reachable_nonempty _ _ Hr1). destruct (stack s1) as [|e es]; [congruence|].
    unfold ret. rewrite D2. reflexivity.
Qed.

(** A body that ends without return. *)
Lemma call_falls_off s f args name params rt body s1 s2 s3 :
  runs E s f (Ok (T_FN (T_IDENTIFIER name) params rt body) s1) -> body <> NULL -> stack s2 <> [] ->
  entered E name params args s1 s2 ->
  runs_body E s2 body (Ok tt s3) ->
  runs E s (T_FN_CALL f args) (close_scope NULL s3).
Proof.
  intros Hf Hb Hn He H. destruct (stack s2) as [|c cs] eqn:Hs2; [congruence|].
  eapply call_lim; [apply close_scope_fuel|exact Hf|exact Hb|].
  eapply call_enter; [exact He|exact Hs2|].
  eapply lim_catch_ok; [apply lim_stmts; exact H|]. apply lim_const. intros _. apply pop_close.
Qed.

(** A body that stops the program. *)
Lemma call_stops s f args name params rt body s1 s2 o r :
  runs E s f (Ok (T_FN (T_IDENTIFIER name) params rt body) s1) -> body <> NULL -> stack s2 <> [] ->
  entered E name params args s1 s2 ->
  runs_body E s2 body o -> (forall i s', o <> Jmp i s') -> same_stop o r ->
  runs E s (T_FN_CALL f args) r.
Proof.
  intros Hf Hb Hn He H Ho Hst. destruct (stack s2) as [|c cs] eqn:Hs2; [congruence|].
  eapply call_lim; [eapply same_stop_stops; eauto|exact Hf|exact Hb|].
  eapply call_enter; [exact He|exact Hs2|].
  apply lim_stmts in H. destruct H as [n H]. exists n. intros m Hm. unfold catch. rewrite H by exact Hm.
  destruct o, r; cbn in Hst; try contradiction; try congruence.
  - exfalso. eapply Ho; reflexivity.
  - destruct Hst; congruence.
  - destruct Hst; congruence.
Qed.

(** ** Without break statements *)

Lemma breaks_runs s t r s' : runs E s t r -> final r = Some s' -> breaks s <= breaks s'.
Proof. intros H Hf. eapply breaks_mono. eapply runs_steps; eauto. Qed.

Lemma items_restored l s s' : items E l s s' -> reachable E s -> breaks s' = breaks s ->
  restored (stack s) (stack s') /\ reachable E s'.
Proof.
  induction 1; intros Hr Hb; [split; auto using restored_refl|].
  assert (Hr1 : reachable E s1) by (eapply reachable_runs; [eassumption|eassumption|reflexivity]).
  pose proof (breaks_runs _ _ _ _ H eq_refl). pose proof (breaks_mono _ _ _ (items_steps _ _ _ H1)).
  destruct IHitems as [I1 I2]; [assumption|lia|]. split; auto.
  eapply restored_trans; [|exact I1]. eapply runs_restored; eauto. lia.
Qed.

Lemma int_value_restored s t z s' : reachable E s -> int_value E s t (Ok z s') -> breaks s' = breaks s ->
  restored (stack s) (stack s').
Proof.
  intros Hr H Hb. apply int_value_lim in H. destruct H as [_ [n H]].
  assert (Hg : good (comparable E (K E n) t)) by (apply good_comparable; intros; apply ev_good).
  destruct Hg as [_ Hg]. specialize (Hg s (reachable_ids_lt _ _ Hr)). rewrite (H n (le_n n)) in Hg. auto.
Qed.

Lemma restored_activation l l' : restored l l' -> activation l' = activation l.
Proof. rewrite !activation_find. apply restored_fn. Qed.

Lemma activation_runs s t v s' : reachable E s -> runs E s t (Ok v s') -> breaks s' = breaks s ->
  activation (stack s') = activation (stack s).
Proof. intros. apply restored_activation. eapply runs_restored; eauto. Qed.

Lemma loop_cond_restored s t z s' : reachable E s -> loop_cond E s t (Ok z s') -> breaks s' = breaks s ->
  restored (stack s) (stack s').
Proof.
  intros Hr [(v & s1 & H1 & H2)|(o & _ & H)] Hb; [|destruct o; contradiction].
  pose proof (breaks_runs _ _ _ _ H1 eq_refl). pose proof (breaks_mono _ _ _ (int_value_steps _ _ _ _ H2 eq_refl)).
  eapply restored_trans; [eapply runs_restored; eauto; lia|].
  eapply int_value_restored; [|exact H2|lia]. (eapply reachable_runs; [eassumption|eassumption|reflexivity]).
Qed.

Lemma open_scope_activation name s : activation (stack (open_scope E name s)) = activation (stack s).
Proof. reflexivity. Qed.

Lemma close_restored name s s1 s2 : reachable E s -> steps E (open_scope E name s) s1 ->
  restored (stack (open_scope E name s)) (stack s1) -> close_scope tt s1 = Ok tt s2 -> stack s2 = stack s.
Proof.
  intros _ _ Hr Hc. cbn in Hr. unfold close_scope in Hc. destruct (stack s1) as [|c [|c' cs]]; try discriminate.
  destruct Hr as [Hr _]. injection Hc as <-. exact Hr.
Qed.

Lemma returns_activation s t i v s' : returns E s t i v s' -> reachable E s -> breaks s' = breaks s ->
  activation (stack s) = Some i.
Proof.
  intros H. induction H using returns_mind with
    (P0 := fun s t i v s' _ => reachable E s -> breaks s' = breaks s -> activation (stack s) = Some i);
    intros Hr Hb; cbn [breaks set_stack] in Hb.
  - pose proof (breaks_mono _ _ _ (items_steps _ _ _ i0)). pose proof (breaks_runs _ _ _ _ r eq_refl).
    destruct (items_restored _ _ _ i0 Hr) as [R1 R2]; [lia|].
    rewrite <- (restored_activation _ _ R1). rewrite <- e1. symmetry. eapply activation_runs; eauto. lia.
  - pose proof (breaks_mono _ _ _ (items_steps _ _ _ i0)).
    destruct (returns_last s1 (CHAIN_HEAD [t]) i v s2) as (q & Q1 & Q2 & Q3);
      [apply (ret_nested E [] t [] s1 s1); [constructor|assumption]|].
    pose proof (breaks_mono _ _ _ Q1). assert (breaks s2 = breaks q) by (rewrite Q3; reflexivity).
    destruct (items_restored _ _ _ i0 Hr) as [R1 R2]; [lia|].
    rewrite <- (restored_activation _ _ R1). apply IHreturns; auto. lia.
  - destruct (returns_last _ _ _ _ _ H) as (q & Q1 & Q2 & Q3). pose proof (breaks_mono _ _ _ Q1).
    assert (breaks s2 = breaks q) by (rewrite Q3; reflexivity).
    assert (breaks (open_scope E "If statement" s1) = breaks s1) by reflexivity.
    pose proof (int_value_steps _ _ _ _ i0 eq_refl) as S1. pose proof (breaks_mono _ _ _ S1).
    rewrite <- (restored_activation _ _ (int_value_restored _ _ _ _ Hr i0 ltac:(lia))).
    apply IHreturns; [|lia]. eapply reachable_steps; [exact Hr|]. eapply steps_trans; [exact S1|apply open_scope_steps].
  - destruct (returns_last _ _ _ _ _ H) as (q & Q1 & Q2 & Q3). pose proof (breaks_mono _ _ _ Q1).
    assert (breaks s2 = breaks q) by (rewrite Q3; reflexivity).
    assert (breaks (open_scope E "While Loop" s1) = breaks s1) by reflexivity.
    pose proof (loop_cond_steps _ _ _ _ l) as S1. pose proof (breaks_mono _ _ _ S1).
    rewrite <- (restored_activation _ _ (loop_cond_restored _ _ _ _ Hr l ltac:(lia))).
    apply IHreturns; [|lia]. eapply reachable_steps; [exact Hr|]. eapply steps_trans; [exact S1|apply open_scope_steps].
  - destruct (returns_last s3 (CHAIN_HEAD [T_LOOP_WHILE c b]) i v s4) as (q & Q1 & Q2 & Q3);
      [apply (ret_nested E [] _ [] s3 s3); [constructor|assumption]|].
    pose proof (breaks_mono _ _ _ Q1). assert (breaks s4 = breaks q) by (rewrite Q3; reflexivity).
    pose proof (loop_cond_steps _ _ _ _ l) as S1. pose proof (breaks_mono _ _ _ S1).
    pose proof (runs_body_steps _ _ _ _ _ r eq_refl) as S2. pose proof (breaks_mono _ _ _ S2).
    pose proof (close_scope_steps _ _ _ _ e) as S3. pose proof (breaks_mono _ _ _ S3).
    assert (breaks (open_scope E "While Loop" s1) = breaks s1) by reflexivity.
    assert (Hr1 : reachable E s1) by (eapply reachable_steps; eauto).
    assert (Hr1' : reachable E (open_scope E "While Loop" s1)) by (eapply reachable_steps; [exact Hr1|apply open_scope_steps]).
    assert (Hr3 : reachable E s3) by (eapply reachable_steps; [exact Hr1'|]; eapply steps_trans; eauto).
    rewrite <- (restored_activation _ _ (loop_cond_restored _ _ _ _ Hr l ltac:(lia))).
    rewrite <- (close_restored "While Loop" s1 s2 s3 Hr1 S2 ltac:(eapply runs_body_restored; eauto; lia) e).
    apply IHreturns; [exact Hr3|lia].
  - destruct (returns_last s1 (CHAIN_HEAD [T_LOOP_FOR NULL c a b]) i v s2) as (q & Q1 & Q2 & Q3);
      [apply (ret_nested E [] _ [] s1 s1); [constructor|assumption]|].
    pose proof (breaks_mono _ _ _ Q1). assert (breaks s2 = breaks q) by (rewrite Q3; reflexivity).
    pose proof (breaks_runs _ _ _ _ r eq_refl).
    rewrite <- (activation_runs _ _ _ _ Hr r ltac:(lia)). apply IHreturns; [|lia].
    (eapply reachable_runs; [eassumption|eassumption|reflexivity]).
  - destruct (returns_last _ _ _ _ _ H) as (q & Q1 & Q2 & Q3). pose proof (breaks_mono _ _ _ Q1).
    assert (breaks s2 = breaks q) by (rewrite Q3; reflexivity).
    assert (breaks (open_scope E "For Loop" s1) = breaks s1) by reflexivity.
    pose proof (loop_cond_steps _ _ _ _ l) as S1. pose proof (breaks_mono _ _ _ S1).
    rewrite <- (restored_activation _ _ (loop_cond_restored _ _ _ _ Hr l ltac:(lia))).
    apply IHreturns; [|lia]. eapply reachable_steps; [exact Hr|]. eapply steps_trans; [exact S1|apply open_scope_steps].
  - destruct (returns_last s4 (CHAIN_HEAD [T_LOOP_FOR NULL c a b]) i v s5) as (q & Q1 & Q2 & Q3);
      [apply (ret_nested E [] _ [] s4 s4); [constructor|assumption]|].
    pose proof (breaks_mono _ _ _ Q1). assert (breaks s5 = breaks q) by (rewrite Q3; reflexivity).
    pose proof (loop_cond_steps _ _ _ _ l) as S1. pose proof (breaks_mono _ _ _ S1).
    pose proof (runs_body_steps _ _ _ _ _ r eq_refl) as S2. pose proof (breaks_mono _ _ _ S2).
    pose proof (close_scope_steps _ _ _ _ e) as S3. pose proof (breaks_mono _ _ _ S3).
    pose proof (runs_steps _ _ _ _ _ r0 eq_refl) as S4. pose proof (breaks_mono _ _ _ S4).
    assert (breaks (open_scope E "For Loop" s1) = breaks s1) by reflexivity.
    assert (Hr1 : reachable E s1) by (eapply reachable_steps; eauto).
    assert (Hr1' : reachable E (open_scope E "For Loop" s1)) by (eapply reachable_steps; [exact Hr1|apply open_scope_steps]).
    assert (Hr3 : reachable E s3) by (eapply reachable_steps; [exact Hr1'|]; eapply steps_trans; eauto).
    rewrite <- (restored_activation _ _ (loop_cond_restored _ _ _ _ Hr l ltac:(lia))).
    rewrite <- (close_restored "For Loop" s1 s2 s3 Hr1 S2 ltac:(eapply runs_body_restored; eauto; lia) e).
    rewrite <- (activation_runs _ _ _ _ Hr3 r0 ltac:(lia)).
    apply IHreturns; [eapply reachable_steps; eauto|lia].
Qed.

Lemma params_bound_restored ds xs s s' : params_bound E ds xs s s' -> reachable E s -> breaks s' = breaks s ->
  restored (stack s) (stack s').
Proof.
  induction 1; intros Hr Hb; [apply restored_refl|].
  assert (Hr1 : reachable E s1) by (eapply reachable_runs; [eassumption|eassumption|reflexivity]).
  assert (Hr2 : reachable E s2) by (eapply reachable_runs; [eassumption|eassumption|reflexivity]).
  set (s2' := set_fresh (fun n => n + 1) (after_tick E s2)) in *.
  assert (Hr2' : reachable E s2').
  { eapply reachable_steps; [exact Hr2|]. eapply steps_more; [apply steps_one, st_tick|apply st_fresh]. }
  assert (Hr3 : reachable E s3) by (eapply reachable_runs; [exact Hr2'|exact H1|reflexivity]).
  pose proof (breaks_runs _ _ _ _ H eq_refl). pose proof (breaks_runs _ _ _ _ H0 eq_refl).
  assert (breaks s2' = breaks s2) by reflexivity.
  assert (B3 : breaks s2' <= breaks s3) by (eapply breaks_runs; [exact H1|reflexivity]).
  pose proof (breaks_mono _ _ _ (params_bound_steps _ _ _ _ H2)).
  eapply restored_trans; [eapply (runs_restored E s); eauto; lia|].
  eapply restored_trans; [eapply (runs_restored E s1); eauto; lia|].
  change (stack s2) with (stack s2').
  eapply restored_trans; [eapply (runs_restored E s2'); [exact Hr2'|exact H1|lia]|].
  apply IHparams_bound; auto. lia.
Qed.

Lemma entered_current name params args s s' : reachable E s -> entered E name params args s s' ->
  breaks s' = breaks s -> exists c, stack s' = c :: stack s /\ c_id c = fresh s /\ c_isfn c = true.
Proof.
  intros Hr [[_ ->]|[_ H]] Hb.
  - eexists. split; [reflexivity|]. auto.
  - apply params_bound_restored in H; auto.
    + cbn in H. destruct (stack s') as [|c cs]; [contradiction|]. destruct H as [-> (G1 & _ & _ & _ & G2 & _)].
      exists c. auto.
    + eapply reachable_steps; [exact Hr|apply open_activation_steps].
Qed.

End Calls.
