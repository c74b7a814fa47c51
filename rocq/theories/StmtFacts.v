(** Statement lists, return and calls of interpreted functions. *)
From Coq Require Import ZArith List String Bool Lia.
From Verif Require Import CInt CIntFacts Tree SpecResolver State Eval StepsFacts MonoFacts EvalInv
  SpecScope ScopeFacts SpecRun SpecExpr SpecControl SpecStmt RunFacts RunRules ExprFacts ControlFacts.
Import ListNotations.
Local Open Scope Z_scope.
Local Open Scope m_scope.

Lemma activation_find cs : activation cs = find_fn_ctx cs.
Proof. induction cs; cbn; [auto|]. destruct (c_isfn a); auto. Qed.
Lemma give_set v cs : give v cs = set_retval v cs.
Proof. induction cs; cbn; [auto|]. destruct (c_isfn a) eqn:Ha; [unfold c_set_retval; rewrite Ha; reflexivity|]. congruence. Qed.
Lemma set_stack_ext f g s : f (stack s) = g (stack s) -> set_stack f s = set_stack g s.
Proof. intros H. unfold set_stack. rewrite H. reflexivity. Qed.
Lemma give_set_stack v s : set_stack (give v) s = set_stack (set_retval v) s.
Proof. apply set_stack_ext, give_set. Qed.

Section Stmts.
Variable E : env.

Ltac lbind := eapply lim_bind.

(** ** Return *)

Lemma return_to_lim v s r : r <> Fuel -> lim E (fun k => do_return E k v) s r <-> return_to E v s r.
Proof.
  intros Hr. unfold return_to. rewrite activation_find.
  assert (H0 : forall k, do_return E k v s = match find_fn_ctx (stack s) with
    | None => bind (comparable E k v) (fun z => exit_ (smod 32 z)) s
    | Some i => Jmp i (set_stack (give v) s) end).
  { intros k. unfold do_return. unfold bind at 1, get at 1. destruct (find_fn_ctx (stack s)).
    - rewrite give_set_stack. reflexivity.
    - unfold cscript_exit, get_c_main_return_value, bind, ret. destruct (comparable E k v s); try reflexivity. rewrite smod_32_get_si. reflexivity. }
  destruct (find_fn_ctx (stack s)) as [i|].
  - split.
    + intros [n H]. rewrite <- (H n (le_n n)). apply H0.
    + intros ->. apply lim_const. exact H0.
  - assert (H1 : lim E (fun k => do_return E k v) s r <->
                 lim E (fun k => bind (comparable E k v) (fun z => exit_ (smod 32 z))) s r).
    { split; apply lim_ext; intros k; [symmetry|]; apply H0. }
    rewrite H1. rewrite lim_int_bind by exact Hr. split.
    + intros [(z & s1 & H2 & H3)|H2]; [left|right; exact H2]. exists z, s1. split; auto.
      apply lim_const_inv in H3. symmetry. exact H3.
    + intros [(z & s1 & H2 & ->)|H2]; [left|right; exact H2]. exists z, s1. split; auto.
      apply lim_pure. reflexivity.
Qed.

Lemma return_spec s l e r : runs E s (T_RETURN l e) r <->
  (exists v s1, runs E s (returned s l e) (Ok v s1) /\
     r = Ok (T_RETURN l e) (set_ov_ret (fun o => (l, v) :: o) s1)) \/
  (exists o, runs E s (returned s l e) o /\ same_stop o r).
Proof.
  assert (H0 : forall k, evaluate_1 E k (T_RETURN l e) s =
    bind (k_ev k (returned s l e)) (fun v => modify (set_ov_ret (fun o => (l, v) :: o)) ;; ret (T_RETURN l e)) s)
    by reflexivity.
  split.
  - intros H. pose proof (proj1 H) as Hr. apply runs_lim in H.
    eapply (lim_ext E _ (fun k => bind (k_ev k (returned s l e)) (fun v => modify (set_ov_ret (fun o => (l, v) :: o)) ;; ret (T_RETURN l e)))) in H;
      [|intros k; symmetry; apply H0].
    destruct (lim_bind_inv E _ _ _ _ _ _ (kmono_ev E _) Hr H) as [(v & s1 & H1 & H2)|(o & H1 & H2 & H3 & H4)].
    + left. exists v, s1. split; [apply lim_ev_runs; auto; discriminate|].
      apply lim_const_inv in H2. symmetry. exact H2.
    + right. exists o. split; [apply lim_ev_runs; auto|]. apply same_stop_recast.
      split; [apply is_ok_stops, H2|]. auto.
  - intros H. apply lim_runs.
    { destruct H as [(v & s1 & _ & ->)|(o & _ & H)]; [discriminate | eapply same_stop_stops; eauto]. }
    apply (lim_ext E _ _ (fun k => bind (k_ev k (returned s l e)) (fun v => modify (set_ov_ret (fun o => (l, v) :: o)) ;; ret (T_RETURN l e))));
      [exact H0|].
    destruct H as [(v & s1 & H1 & ->)|(o & H1 & H)].
    + lbind; [apply lim_ev, H1|]. apply lim_pure. reflexivity.
    + eapply lim_same_stop; [apply lim_ev, H1 | exact H].
Qed.

(** ** Lists *)

Definition chain_rest (k : knot) (l : list tree) (v : tree) : M unit :=
  match v with
  | T_RETURN lbl e => fun s => do_return E k (ret_exp s lbl e) s
  | T_BREAK => ret tt
  | _ => evaluate_chain E k l
  end.
Lemma chain_step k i l s : evaluate_chain E k (i :: l) s = bind (k_ev k i) (chain_rest k l) s.
Proof.
  cbn [evaluate_chain]. unfold bind at 1. unfold bind at 2.
  destruct (k_ev k i s) as [[] s1| | | | | | | |]; reflexivity.
Qed.

Lemma ends_list_false v k l : ends_list v = false -> chain_rest k l v = evaluate_chain E k l.
Proof. destruct v; auto; discriminate. Qed.

Lemma block_chain n l s r : r <> Fuel -> evaluate_chain E (K E n) l s = r -> block E l s r.
Proof.
  intros Hr. revert s. induction l as [|i l IH]; intros s H.
  - cbn in H. subst r. constructor.
  - rewrite chain_step in H. apply bind_inv in H; auto. destruct H as [(v & s1 & H1 & H)|(o & H1 & H)].
    + assert (R : runs E s i (Ok v s1)) by (eapply ev_at_runs; eauto; discriminate).
      destruct (ends_list v) eqn:Hv.
      * destruct v; try discriminate.
        { eapply block_return; eauto. apply return_to_lim; auto.
          eapply kmono_lim; [apply kmono_do_return| |exact Hr]. exact H. }
        { unfold ret in H. subst r. apply block_break; auto. }
      * rewrite ends_list_false in H by exact Hv. eapply block_next; eauto.
    + eapply block_stops; [|exact H]. eapply ev_at_runs; eauto. eapply same_stop_nofuel; eauto.
Qed.

Lemma return_to_fuel v s r : return_to E v s r -> r <> Fuel.
Proof.
  unfold return_to. destruct (activation (stack s)).
  - intros ->. discriminate.
  - intros [(z & s1 & _ & ->)|(o & _ & H)]; [discriminate | eapply same_stop_stops; eauto].
Qed.

Lemma block_fuel l s r : block E l s r -> r <> Fuel.
Proof.
  induction 1; try discriminate; auto.
  - eapply return_to_fuel; eauto.
  - eapply same_stop_stops; eauto.
Qed.

Lemma chain_block l s r : block E l s r -> lim E (fun k => evaluate_chain E k l) s r.
Proof.
  intros H. induction H.
  - apply lim_const. reflexivity.
  - apply (lim_ext E _ _ (fun k => bind (k_ev k i) (chain_rest k l))); [intros k; apply chain_step|]. lbind; [apply lim_ev, H|].
    cbn beta. destruct v; try discriminate; exact IHblock.
  - apply (lim_ext E _ _ (fun k => bind (k_ev k i) (chain_rest k l))); [intros k; apply chain_step|]. lbind; [apply lim_ev, H|]. apply lim_const. reflexivity.
  - apply (lim_ext E _ _ (fun k => bind (k_ev k i) (chain_rest k l))); [intros k; apply chain_step|]. lbind; [apply lim_ev, H|]. cbn beta iota.
    apply return_to_lim in H0; [|eapply return_to_fuel; eauto].
    eapply lim_ext; [|exact H0]. intros k. reflexivity.
  - apply (lim_ext E _ _ (fun k => bind (k_ev k i) (chain_rest k l))); [intros k; apply chain_step|]. eapply lim_same_stop; [apply lim_ev, H | exact H0].
Qed.

Lemma block_spec s l r : runs_body E s (CHAIN_HEAD l) r <-> block E l s r.
Proof.
  split.
  - intros [Hr [n H]]. eapply block_chain; eauto.
  - intros H. apply lim_body; [eapply block_fuel; eauto|]. apply chain_block in H. exact H.
Qed.

Definition single (t : tree) : bool := match t with NULL | CHAIN_HEAD _ => false | _ => true end.

Lemma single_spec s t r : single t = true ->
  runs_body E s t r <->
  (exists v s1, runs E s t (Ok v s1) /\ r = Ok tt s1) \/ (exists o, runs E s t o /\ same_stop o r).
Proof.
  intros Ht.
  assert (H0 : forall k s, evaluate_stmts E k t s = bind (k_ev k t) (fun _ => ret tt) s)
    by (intros k s'; destruct t; try discriminate; reflexivity).
  split.
  - intros [Hr [n H]]. rewrite H0 in H. apply bind_inv in H; auto.
    destruct H as [(v & s1 & H1 & H)|(o & H1 & H)].
    + left. exists v, s1. split; [eapply ev_at_runs; eauto; discriminate|]. symmetry. exact H.
    + right. exists o. split; auto. eapply ev_at_runs; eauto. eapply same_stop_nofuel; eauto.
  - intros H. apply lim_body.
    { destruct H as [(v & s1 & _ & ->)|(o & _ & H)]; [discriminate | eapply same_stop_stops; eauto]. }
    apply (lim_ext E _ _ (fun k => bind (k_ev k t) (fun _ => ret tt))); [intros k; apply H0|].
    destruct H as [(v & s1 & H1 & ->)|(o & H1 & H)].
    + lbind; [apply lim_ev, H1|]. apply lim_pure. reflexivity.
    + eapply lim_same_stop; [apply lim_ev, H1 | exact H].
Qed.

Lemma null_body s r : runs_body E s NULL r <-> r = Ok tt s.
Proof.
  split.
  - intros [_ [n H]]. symmetry. exact H.
  - intros ->. split; [discriminate|]. exists O. reflexivity.
Qed.

Lemma items_block pre post s s1 r : items E pre s s1 -> block E post s1 r -> block E (pre ++ post) s r.
Proof. induction 1; intros H'; cbn [app]; auto. eapply block_next; eauto. Qed.

(** ** Return statements inside nested statements *)

Scheme returns_mind := Induction for returns Sort Prop
  with returns_in_mind := Induction for returns_in Sort Prop.

Lemma for_null s : runs E s NULL (Ok NULL s).
Proof. apply (runs_intro E s NULL _ 1%nat); [reflexivity|discriminate]. Qed.

Lemma for_inv c a b s r : runs E s (T_LOOP_FOR NULL c a b) r ->
  loop E "For Loop" c b (fun s o => runs E s a o) s r.
Proof.
  intros H. apply for_spec in H. destruct H as [(v & s1 & H1 & H)|(o & H1 & H)].
  - pose proof (runs_fun _ _ _ _ _ H1 (for_null s)) as X. injection X as -> ->. exact H.
  - pose proof (runs_fun _ _ _ _ _ H1 (for_null s)) as X. subst o. destruct H.
Qed.

Lemma returns_jump s t i v s' : returns E s t i v s' -> runs_body E s t (Jmp i s').
Proof.
  intros H. induction H using returns_mind with
    (P0 := fun s t i v s' _ => runs E s t (Jmp i s')).
  - apply block_spec. eapply items_block; eauto. eapply block_return; eauto.
    unfold return_to. rewrite e1. rewrite <- e0. reflexivity.
  - apply block_spec. eapply items_block; eauto. eapply block_stops; eauto. cbn. auto.
  - apply if_spec. left. exists z, s1, arm. repeat split; auto. right. exists (Jmp i s2). cbn. auto.
  - apply while_spec. eapply loop_body_stops; eauto. cbn. auto.
  - apply while_spec. eapply loop_next; eauto; [reflexivity|]. apply while_spec. exact IHreturns.
  - apply for_spec. left. exists w, s1. split; auto. apply for_inv. exact IHreturns.
  - apply for_spec. left. exists NULL, s. split; [apply for_null|]. eapply loop_body_stops; eauto. cbn. auto.
  - apply for_spec. left. exists NULL, s. split; [apply for_null|].
    eapply loop_next; eauto. apply for_inv. exact IHreturns.
Qed.

End Stmts.
