(** Runs, reachable states and storage. *)
From Coq Require Import ZArith List String Bool Lia.
From Verif Require Import CInt CIntFacts Tree SpecResolver State Eval StepsFacts MonoFacts EvalInv
  SpecScope ScopeFacts SpecRun.
Import ListNotations.
Local Open Scope Z_scope.
Local Open Scope m_scope.

(** ** Outcomes *)

Lemma runs_fun E s t r r' : runs E s t r -> runs E s t r' -> r = r'.
Proof.
  intros [H1 [n Hn]] [H2 [m Hm]]. unfold evaluate_expr in *.
  destruct (Nat.le_ge_cases n m) as [Hle|Hle].
  - rewrite (ev_mono E n m t s r Hle Hn H1) in Hm. exact Hm.
  - rewrite (ev_mono E m n t s r' Hle Hm H2) in Hn. symmetry. exact Hn.
Qed.

Lemma runs_body_fun E s t r r' : runs_body E s t r -> runs_body E s t r' -> r = r'.
Proof.
  intros [H1 [n Hn]] [H2 [m Hm]].
  destruct (Nat.le_ge_cases n m) as [Hle|Hle].
  - rewrite (stmts_mono E n m t s r Hle Hn H1) in Hm. exact Hm.
  - rewrite (stmts_mono E m n t s r' Hle Hm H2) in Hn. symmetry. exact Hn.
Qed.

(** The specification's types are the model's. *)
Lemma width_csize c : width c = csize c.
Proof. destruct c; reflexivity. Qed.
Lemma integer_type_is_intty c : integer_type c = is_intty c.
Proof. destruct c; reflexivity. Qed.
Lemma signed_csigned c : signed c = csigned c.
Proof. destruct c; reflexivity. Qed.
Lemma unsigned_at_load m a n : unsigned_at m a n = le_load m a n.
Proof. revert a. induction n; intros a; cbn; [|rewrite IHn]; reflexivity. Qed.
Lemma value_at_load s c a : value_at s c a = load_c (mem s) a c.
Proof.
  unfold value_at, load_c, conv, smod. rewrite width_csize, signed_csigned, unsigned_at_load.
  pose proof (le_load_bound (mem s) a (Z.to_nat (csize c))) as H. rewrite csize_nat, pow256 in H
    by (pose proof (csize_pos c); lia).
  destruct (csigned c); cbn [andb]; rewrite Z.mod_small by exact H; [|reflexivity].
  rewrite Z.ltb_antisym. destruct (_ <=? _); reflexivity.
Qed.

Lemma runs_intro E s t r n : k_ev (K E n) t s = r -> r <> Fuel -> runs E s t r.
Proof. intros H Hr. split; auto. exists n. exact H. Qed.

(** Some depth from which on the outcome is [r]. *)
Lemma runs_at E s t r : runs E s t r -> exists n, forall m, (n <= m)%nat -> k_ev (K E m) t s = r.
Proof.
  intros [Hr [n Hn]]. exists n. intros m Hm. eapply ev_mono; eauto.
Qed.
Lemma runs_body_at E s t r : runs_body E s t r ->
  exists n, forall m, (n <= m)%nat -> evaluate_stmts E (K E m) t s = r.
Proof.
  intros [Hr [n Hn]]. exists n. intros m Hm. eapply stmts_mono; eauto.
Qed.

(** To run [t] it suffices that one unfolding of the evaluator gives [r] at all large depths. *)
Lemma runs_step E s t r : r <> Fuel ->
  (exists n, forall m, (n <= m)%nat -> evaluate_1 E (K E m) t s = r) -> runs E s t r.
Proof.
  intros Hr [n H]. split; auto. exists (S n). unfold evaluate_expr. cbn [K k_ev]. apply H. lia.
Qed.

(** Inversion: an outcome comes from an unfolding, at all large depths. *)
Lemma runs_inv E s t r : runs E s t r ->
  exists n, forall m, (n <= m)%nat -> evaluate_1 E (K E m) t s = r.
Proof.
  intros H. destruct (runs_at _ _ _ _ H) as [n Hn]. exists n. intros m Hm.
  specialize (Hn (S m)). cbn [K k_ev] in Hn. apply Hn. lia.
Qed.

Lemma runs_steps E s t r s' : runs E s t r -> final r = Some s' -> steps E s s'.
Proof. intros [_ [n Hn]] H. apply (ev_steps E n t). unfold evaluate_expr in Hn. congruence. Qed.

Lemma runs_body_steps E s t r s' : runs_body E s t r -> final r = Some s' -> steps E s s'.
Proof. intros [_ [n Hn]] H. apply (stmts_steps E n t). congruence. Qed.

(** ** Reachable states *)

Lemma reachable_steps E s s' : reachable E s -> steps E s s' -> reachable E s'.
Proof. intros H Hs. induction Hs; auto. eapply reach_step; eauto. Qed.

Lemma init_steps E s0 s : eval_init E s0 = Ok tt s -> steps E s0 s.
Proof.
  intros H. eapply (ps_use E unit (eval_init E)); [|rewrite H; reflexivity].
  unfold eval_init. repeat first [apply psteps_bind; [first [apply psteps_push_ctx | apply psteps_map_identifier]|intros _]
    | apply psteps_tick].
Qed.

Lemma wf_start E m ext : start_blocks ext -> wf E (start_state m ext).
Proof.
  intros [H1 _]. repeat split; cbn; try constructor; auto. intros a [].
Qed.

Lemma wf_reachable E s : reachable E s -> wf E s.
Proof.
  induction 1; [|eapply wf_step; eauto].
  eapply wf_steps; [eapply init_steps; eauto|]. apply wf_start. assumption.
Qed.

Lemma names_reachable E s : reachable E s -> names_ok s.
Proof.
  induction 1; [|eapply names_ok_step; eauto].
  eapply names_ok_steps; [eapply init_steps; eauto|]. constructor.
Qed.

Lemma reachable_ids_lt E s : reachable E s -> ids_lt s.
Proof. intros H. apply wf_reachable in H. apply H. Qed.

(** There are always the two outermost scopes. *)
Lemma drop_last_nonempty E s s' : steps E s s' -> stack s <> [] -> stack s' <> [].
Proof.
  intros H. revert s s' H. apply (steps_invariant E (fun s => stack s <> [])).
  intros s s' Hs Hst. destruct Hst; cbn; auto; try congruence;
    try (destruct (stack s); cbn; congruence).
  destruct (stack s); cbn; [congruence|]. destruct (c_isfn c); congruence.
Qed.

Lemma bind_ok A B (m : M A) (f : A -> M B) s b s' : bind m f s = Ok b s' ->
  exists a s1, m s = Ok a s1 /\ f a s1 = Ok b s'.
Proof. unfold bind. destruct (m s); try discriminate. eauto. Qed.

Lemma push_ctx_nonempty E x s u s' : push_ctx E x s = Ok u s' -> stack s' <> [].
Proof. unfold push_ctx. cbn. intros H. inversion H. discriminate. Qed.

Lemma bind_nonempty E A (m : M unit) (f : unit -> M A) s a s' :
  (forall u s1, m s = Ok u s1 -> stack s1 <> []) -> (forall u, psteps E (f u)) ->
  bind m f s = Ok a s' -> stack s' <> [].
Proof.
  intros Hm Hf H. apply bind_ok in H. destruct H as (u & s1 & H1 & H).
  apply Hm in H1. revert H1. apply (drop_last_nonempty E). apply (Hf u). rewrite H. reflexivity.
Qed.

Lemma init_nonempty E s0 s : eval_init E s0 = Ok tt s -> stack s <> [].
Proof.
  apply bind_nonempty with (E := E).
  - intros u s1. apply push_ctx_nonempty.
  - intros _. repeat first [apply psteps_bind; [first [apply psteps_push_ctx | apply psteps_map_identifier]|intros _]
    | apply psteps_tick].
Qed.

Lemma reachable_nonempty E s : reachable E s -> stack s <> [].
Proof.
  induction 1.
  - eapply init_nonempty; eassumption.
  - eapply drop_last_nonempty; [apply steps_one; eassumption|assumption].
Qed.

(** ** Scopes *)

Lemma runs_restored E s t r s' : reachable E s -> runs E s t (Ok r s') -> breaks s' = breaks s ->
  restored (stack s) (stack s').
Proof.
  intros Hr [_ [n Hn]] Hb. destruct (ev_good E n t) as [_ H].
  specialize (H s (reachable_ids_lt _ _ Hr)). unfold evaluate_expr in Hn. rewrite Hn in H. auto.
Qed.

Lemma runs_body_restored E s t u s' : reachable E s -> runs_body E s t (Ok u s') -> breaks s' = breaks s ->
  restored (stack s) (stack s').
Proof.
  intros Hr [_ [n Hn]] Hb. destruct (stmts_good E n t) as [_ H].
  specialize (H s (reachable_ids_lt _ _ Hr)). rewrite Hn in H. auto.
Qed.

(** ** Storage *)

Lemma owned_storage E s a n : owned s a n -> storage E s a n.
Proof.
  intros (c & base & size & Hc & Ha & Hb & H1 & H2).
  exists (mkblock base size true). repeat split; auto. right. cbn. eapply alloc_in_roots; eauto.
Qed.

Lemma storage_valid E s a n : storage E s a n -> valid s a n = true.
Proof.
  intros (b & Hb & H1 & H2 & _). unfold valid. apply existsb_exists. exists b. split; auto.
  unfold in_block. rewrite andb_true_iff, !Z.leb_le. auto.
Qed.

Lemma owned_valid s a n : owned s a n -> valid s a n = true.
Proof. intros H. eapply (storage_valid (mkenv (fun _ _ => 0) (fun _ => []) (fun _ => []) (fun _ => false)
  (fun _ => 0) 0 0 0 (fun _ _ _ _ => EAbort) (fun _ => None) (fun _ => []) (fun _ _ => 0)
  (fun _ _ _ => 0) (fun _ _ => 0) (fun _ _ => 0))). apply owned_storage, H. Qed.

Lemma storage_sub E s a n a' n' : storage E s a n -> a <= a' -> a' + n' <= a + n -> storage E s a' n'.
Proof.
  intros (b & Hb & H1 & H2 & H3) Ha Hn. exists b. repeat split; auto; lia.
Qed.

Lemma owned_sub s a n a' n' : owned s a n -> a <= a' -> a' + n' <= a + n -> owned s a' n'.
Proof.
  intros (c & base & size & Hc & Ha & Hb & H1 & H2) H3 H4.
  exists c, base, size. repeat split; auto; lia.
Qed.

Lemma restored_in l l' c : restored l l' -> In c l -> exists c', In c' l' /\ grows c c'.
Proof.
  destruct l as [|d ds], l' as [|d' ds']; cbn; try tauto.
  intros [-> Hg] [<-|Hc]; [exists d'; auto | exists c; auto using grows_refl].
Qed.

Lemma owned_steps E s s' a n : wf E s -> steps E s s' ->
  (forall c, In c (stack s) -> exists c', In c' (stack s') /\ c_id c' = c_id c) ->
  owned s a n -> owned s' a n.
Proof.
  intros Hw Hs Hst (c & base & size & Hc & Ha & Hb & H1 & H2).
  destruct (Hst c Hc) as (c' & Hc' & Hid).
  assert (Hh : holds_alloc (c_id c) base size s).
  { pose proof Hw as ((Hlt & Hnd) & Hbl & _). split.
    - rewrite Forall_forall in Hlt. auto.
    - intros d Hd Hdid. assert (d = c); [|subst; auto].
      clear - Hnd Hd Hc Hdid. induction (stack s) as [|e es IH]; [contradiction|].
      cbn in Hnd. inversion Hnd; subst. destruct Hd as [->|Hd], Hc as [->|Hc]; auto.
      + exfalso. apply H1. rewrite Hdid. apply in_map, Hc.
      + exfalso. apply H1. rewrite <- Hdid. apply in_map, Hd. }
  destruct (holds_alloc_steps E _ _ _ _ _ Hs Hw Hh) as [_ Hh'].
  destruct (Hh' c' Hc' Hid) as [Ha' Hb']. exists c', base, size. auto.
Qed.

Lemma owned_restored E s s' a n : wf E s -> steps E s s' -> restored (stack s) (stack s') ->
  owned s a n -> owned s' a n.
Proof.
  intros Hw Hs Hr. apply (owned_steps E); auto. intros c Hc.
  destruct (restored_in _ _ _ Hr Hc) as (c' & Hc' & Hg). exists c'. split; auto. apply Hg.
Qed.

Lemma owned_runs E s t r s' a n : reachable E s -> runs E s t (Ok r s') -> breaks s' = breaks s ->
  owned s a n -> owned s' a n.
Proof.
  intros Hr Hrun Hb. apply (owned_restored E).
  - apply wf_reachable, Hr.
  - eapply runs_steps; [exact Hrun|reflexivity].
  - eapply runs_restored; eauto.
Qed.

Lemma reachable_runs E s t r s' : reachable E s -> runs E s t r -> final r = Some s' -> reachable E s'.
Proof. intros Hr Hrun Hf. eapply reachable_steps; [exact Hr|]. eapply runs_steps; eauto. Qed.

(** ** Names *)

Lemma resolve_id_app_l x m m' : resolve_id x m <> NULL -> resolve_id x (m ++ m') = resolve_id x m.
Proof.
  induction m as [|[y t] m IH]; cbn; [congruence|]. destruct (String.eqb y x); auto.
Qed.

(** ** Effects of ticks *)

Lemma gc_refl s : same_but_gc s s.
Proof. constructor; auto. Qed.

Lemma gc_trans s1 s2 s3 : same_but_gc s1 s2 -> same_but_gc s2 s3 -> same_but_gc s1 s3.
Proof. intros [] []. constructor; try congruence. auto. Qed.

Lemma gc_tick E s : same_but_gc s (after_tick E s).
Proof. constructor; cbn; auto. intros b Hb. apply filter_In in Hb. tauto. Qed.

Lemma roots_gc E s s' : same_but_gc s s' -> roots E s' = roots E s.
Proof. intros H. unfold roots. rewrite (sg_stack _ _ H), (sg_incl _ _ H), (sg_statics _ _ H). reflexivity. Qed.

Lemma lookup_gc s s' x : same_but_gc s s' -> lookup s' x = lookup s x.
Proof. intros H. unfold lookup, scope_ctxs. rewrite (sg_stack _ _ H), (sg_incl _ _ H). reflexivity. Qed.

Lemma tick_eq E s : tick E s = Ok tt (after_tick E s).
Proof. reflexivity. Qed.

Lemma storage_tick E s a n : storage E s a n -> storage E (after_tick E s) a n.
Proof.
  intros (b & Hb & H1 & H2 & H3). exists b. repeat split; auto.
  - cbn. apply filter_In. split; auto. unfold collected. destruct H3 as [->|H3]; [reflexivity|].
    apply zmem_In in H3. rewrite H3, andb_false_r. reflexivity.
Qed.
