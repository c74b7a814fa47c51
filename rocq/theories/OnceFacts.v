(** Return statements that already returned, and static declarations met again. *)
From Coq Require Import ZArith List String Bool Lia.
From Verif Require Import CInt Tree State Eval StepsFacts KeepFacts EvalInv SpecScope ScopeFacts SpecRun SpecControl
  SpecStmt RunFacts RunRules StmtFacts CallFacts LoopFacts.
Import ListNotations.
Local Open Scope Z_scope.

(** ** Return statements *)

Lemma settled_ev E n w s : settled w -> k_ev (K E n) w s = Ok w s \/ k_ev (K E n) w s = Fuel.
Proof. intros H. destruct n; [right; reflexivity|left]. destruct H; reflexivity. Qed.

Lemma settled_runs E w s : settled w -> runs E s w (Ok w s).
Proof. intros H. apply (runs_intro E s w _ 1%nat); [destruct H; reflexivity|discriminate]. Qed.

Definition ret_kept (l : Z) (w : tree) (s s' : state) : Prop :=
  zfind l (ov_ret s) = Some w -> zfind l (ov_ret s') = Some w.

Lemma zfind_cons {A} l l' (x : A) m : zfind l ((l', x) :: m) = if l =? l' then Some x else zfind l m.
Proof. reflexivity. Qed.

Section Kept.
Variables (E : env) (l : Z) (w : tree).
Hypothesis Hw : settled w.

Lemma ret_kept_refl s : ret_kept l w s s. Proof. intros H; exact H. Qed.
Lemma ret_kept_trans s1 s2 s3 : ret_kept l w s1 s2 -> ret_kept l w s2 s3 -> ret_kept l w s1 s3.
Proof. intros H1 H2 H. auto. Qed.
Lemma ret_kept_one s s' : step E s s' -> allowed (Z.eqb l) (fun _ => false) s s' -> ret_kept l w s s'.
Proof.
  intros _ [H _] Hs. destruct H as [-> | (l' & v & Hl & ->)]; [exact Hs|].
  rewrite zfind_cons, Hl. exact Hs.
Qed.

Lemma ret_kept_return n l' e : (l =? l') = true -> ksteps (ret_kept l w) (eval_return (K E n) l' e).
Proof.
  intros Hl s s' H Hs. apply Z.eqb_eq in Hl. subst l'.
  unfold eval_return, bind, get, ret_exp in H. rewrite Hs in H.
  destruct (settled_ev E n w s Hw) as [Hev|Hev]; rewrite Hev in H; cbn in H; [|discriminate].
  injection H as <-. cbn [ov_ret set_ov_ret]. rewrite zfind_cons, Z.eqb_refl. reflexivity.
Qed.

Lemma return_kept_runs s t r s' : zfind l (ov_ret s) = Some w ->
  runs E s t r -> final r = Some s' -> zfind l (ov_ret s') = Some w.
Proof.
  intros Hs [_ [n H]] Hf. rewrite <- H in Hf. revert Hs.
  apply (ev_ksteps E (Z.eqb l) (fun _ => false) (ret_kept l w) ret_kept_refl ret_kept_trans ret_kept_one) in Hf; auto.
  - intros n0 _ l' e. apply ret_kept_return.
  - intros; discriminate.
Qed.
Lemma return_kept_body s t r s' : zfind l (ov_ret s) = Some w ->
  runs_body E s t r -> final r = Some s' -> zfind l (ov_ret s') = Some w.
Proof.
  intros Hs [_ [n H]] Hf. rewrite <- H in Hf. revert Hs.
  apply (stmts_ksteps E (Z.eqb l) (fun _ => false) (ret_kept l w) ret_kept_refl ret_kept_trans ret_kept_one) in Hf; auto.
  - intros n0 _ l' e. apply ret_kept_return.
  - intros; discriminate.
Qed.

Lemma return_again s e : zfind l (ov_ret s) = Some w ->
  runs E s (T_RETURN l e) (Ok (T_RETURN l e) (set_ov_ret (fun o => (l, w) :: o) s)).
Proof.
  intros Hs. apply return_spec. left. exists w, s. split; auto.
  unfold returned. rewrite Hs. apply settled_runs, Hw.
Qed.

Lemma recorded_later s t r s' : recorded s l w -> runs E s t r -> final r = Some s' ->
  recorded s' l w /\ forall e, runs E s' (T_RETURN l e) (Ok (T_RETURN l e) (set_ov_ret (fun o => (l, w) :: o) s')).
Proof.
  intros Hs H Hf. assert (H' : recorded s' l w) by (eapply return_kept_runs; eauto).
  split; [exact H'|]. intros e. apply return_again, H'.
Qed.
Lemma recorded_later_body s t r s' : recorded s l w -> runs_body E s t r -> final r = Some s' ->
  recorded s' l w /\ forall e, runs E s' (T_RETURN l e) (Ok (T_RETURN l e) (set_ov_ret (fun o => (l, w) :: o) s')).
Proof.
  intros Hs H Hf. assert (H' : recorded s' l w) by (eapply return_kept_body; eauto).
  split; [exact H'|]. intros e. apply return_again, H'.
Qed.

Lemma recorded_params ds xs s s' : params_bound E ds xs s s' -> recorded s l w -> recorded s' l w.
Proof.
  induction 1; intros Hs; auto. apply IHparams_bound.
  assert (H3 : recorded s1 l w) by (eapply return_kept_runs; [exact Hs|exact H|reflexivity]).
  assert (H4 : recorded s2 l w) by (eapply return_kept_runs; [exact H3|exact H0|reflexivity]).
  eapply return_kept_runs; [|exact H1|reflexivity]. exact H4.
Qed.
Lemma recorded_entered name params args s s' : entered E name params args s s' -> recorded s l w -> recorded s' l w.
Proof. intros [[_ ->]|[_ H]] Hs; [exact Hs|]. eapply recorded_params; [exact H|exact Hs]. Qed.

Lemma recorded_call s f args name params rt e post s1 s2 : reachable E s -> recorded s1 l w ->
  runs E s f (Ok (T_FN (T_IDENTIFIER name) params rt (CHAIN_HEAD (T_RETURN l e :: post))) s1) ->
  entered E name params args s1 s2 -> breaks s2 = breaks s1 ->
  exists s3, runs E s (T_FN_CALL f args) (Ok w s3) /\ stack s3 = stack s1 /\ mem s3 = mem s2.
Proof.
  intros Hr Hs Hf He Hb. pose proof (recorded_entered _ _ _ _ _ He Hs) as Hs2.
  assert (Hr1 : reachable E s1) by (eapply reachable_runs; [exact Hr|exact Hf|reflexivity]).
  destruct (entered_current E _ _ _ _ _ Hr1 He Hb) as (c & Hst & Hid & Hfn).
  pose proof (return_again s2 e Hs2) as Hret.
  exists (set_stack (fun _ => stack s1) (set_stack (give w) (set_ov_ret (fun o => (l, w) :: o) s2))).
  split; [|split; reflexivity].
  - eapply (call_returns_nobreak E s f args name params rt _ s1 s2 (c_id c) w); eauto.
    + apply (ret_here E [] l e post s2 s2 (c_id c) w); [constructor|exact Hret| |].
      * unfold returned. cbn. rewrite Z.eqb_refl. reflexivity.
      * cbn. rewrite Hst. cbn. rewrite Hfn. reflexivity.
Qed.

Lemma return_first s e v s1 : runs E s e (Ok v s1) -> zfind l (ov_ret s) = None ->
  let s2 := set_ov_ret (fun o => (l, v) :: o) s1 in
  runs E s (T_RETURN l e) (Ok (T_RETURN l e) s2) /\ recorded s2 l v.
Proof.
  intros H Hs s2. split.
  - apply return_spec. left. exists v, s1. unfold returned. rewrite Hs. auto.
  - unfold recorded, s2. cbn. rewrite Z.eqb_refl. reflexivity.
Qed.
End Kept.

(** ** Static declarations *)

Definition static_kept (l : Z) x (s s' : state) : Prop :=
  zfind l (statics s) = Some x -> zfind l (statics s') = Some x.

Section Static.
Variables (E : env) (l : Z) (x : list (string * tree) * list Z).

Lemma static_kept_refl s : static_kept l x s s. Proof. intros H; exact H. Qed.
Lemma static_kept_trans s1 s2 s3 : static_kept l x s1 s2 -> static_kept l x s2 s3 -> static_kept l x s1 s3.
Proof. intros H1 H2 H. auto. Qed.
Lemma static_kept_one s s' : step E s s' -> allowed (fun _ => false) (Z.eqb l) s s' -> static_kept l x s s'.
Proof.
  intros _ [_ H] Hs. destruct H as [-> | (l' & v & Hl & ->)]; [exact Hs|].
  rewrite zfind_cons, Hl. exact Hs.
Qed.

Lemma static_kept_decl n l' sp d : (l =? l') = true ->
  ksteps (static_kept l x) (evaluate_1 E (K E n) (T_DECL l' sp d)).
Proof.
  intros Hl s s' H Hs. apply Z.eqb_eq in Hl. subst l'. cbn [evaluate_1] in H. rewrite Hs in H.
  destruct x as [m al] eqn:Ex. rewrite <- Ex in *.
  assert (Hk : ksteps (static_kept l x) (eval_evaluator_ctx E m))
    by (eapply (ksteps_eval_evaluator_ctx E (fun _ => false) (Z.eqb l));
        eauto using static_kept_refl, static_kept_trans, static_kept_one).
  exact (Hk s s' H Hs).
Qed.

Lemma static_kept_runs s t r s' : zfind l (statics s) = Some x ->
  runs E s t r -> final r = Some s' -> zfind l (statics s') = Some x.
Proof.
  intros Hs [_ [n H]] Hf. rewrite <- H in Hf. revert Hs.
  apply (ev_ksteps E (fun _ => false) (Z.eqb l) (static_kept l x) static_kept_refl static_kept_trans static_kept_one) in Hf; auto.
  - intros; discriminate.
  - intros n0 _ _ l' sp d. apply static_kept_decl.
Qed.
End Static.
