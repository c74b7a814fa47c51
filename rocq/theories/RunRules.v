(** Rules to compute outcomes: limits of the model's functions as the recursion depth grows. *)
From Coq Require Import ZArith List String Bool Lia.
From Verif Require Import CInt CIntFacts Tree SpecResolver State Eval StepsFacts MonoFacts EvalInv
  SpecScope ScopeFacts SpecRun RunFacts.
Import ListNotations.
Local Open Scope Z_scope.
Local Open Scope m_scope.

Section Lim.
Variable E : env.

(** [f] has outcome [r] at all large depths. *)
Definition lim {A} (f : knot -> M A) (s : state) (r : res A) : Prop :=
  exists n, forall m, (n <= m)%nat -> f (K E m) s = r.

Lemma lim_fun A (f : knot -> M A) s r r' : lim f s r -> lim f s r' -> r = r'.
Proof.
  intros [n H] [n' H']. rewrite <- (H (Nat.max n n')), <- (H' (Nat.max n n')) by lia. reflexivity.
Qed.

(** ** Introduction *)

Lemma lim_ext A (f g : knot -> M A) s r : (forall k, f k s = g k s) -> lim g s r -> lim f s r.
Proof. intros H [n Hn]. exists n. intros m Hm. rewrite H. auto. Qed.

Lemma lim_const A (f : knot -> M A) s r : (forall k, f k s = r) -> lim f s r.
Proof. intros H. exists O. auto. Qed.

Lemma lim_pure A (m : M A) s r : m s = r -> lim (fun _ => m) s r.
Proof. intros H. exists O. auto. Qed.

Lemma lim_bind A B (f : knot -> M A) (g : knot -> A -> M B) s a s1 r :
  lim f s (Ok a s1) -> lim (fun k => g k a) s1 r -> lim (fun k => bind (f k) (g k)) s r.
Proof.
  intros [n Hn] [n' Hn']. exists (Nat.max n n'). intros m Hm. unfold bind.
  rewrite Hn by lia. apply Hn'. lia.
Qed.

(** A failing outcome at another type. *)
Definition recast {A B} (x : res A) : res B :=
  match x with
  | Ok _ _ => UB
  | Jmp i s => Jmp i s | Die s => Die s | Abort s => Abort s | Exit n s => Exit n s
  | UB => UB | Fuel => Fuel | NoMemory n s => NoMemory n s | Unmodelled s => Unmodelled s
  end.
Definition is_ok {A} (x : res A) : bool := match x with Ok _ _ => true | _ => false end.

Lemma lim_bind_fail A B (f : knot -> M A) (g : knot -> A -> M B) s x :
  lim f s x -> is_ok x = false -> lim (fun k => bind (f k) (g k)) s (recast x).
Proof.
  intros [n Hn] H. exists n. intros m Hm. unfold bind. rewrite Hn by lia.
  destruct x; try reflexivity. discriminate.
Qed.

Lemma lim_ev s t r : runs E s t r -> lim (fun k => k_ev k t) s r.
Proof. intros H. apply runs_at, H. Qed.

Lemma lim_stmts s t r : runs_body E s t r -> lim (fun k => evaluate_stmts E k t) s r.
Proof. intros H. apply runs_body_at, H. Qed.

Lemma lim_runs s t r : r <> Fuel -> lim (fun k => evaluate_1 E k t) s r -> runs E s t r.
Proof. intros Hr H. apply runs_step; auto. Qed.

Lemma lim_body s t r : r <> Fuel -> lim (fun k => evaluate_stmts E k t) s r -> runs_body E s t r.
Proof. intros Hr [n H]. split; auto. exists n. apply H. lia. Qed.

Lemma lim_eval1 s t r : lim (fun k => evaluate_1 E k t) s r -> lim (fun k => k_ev k t) s r.
Proof.
  intros [n H]. exists (S n). intros m Hm. destruct m; [lia|]. apply (H m). lia.
Qed.

Lemma lim_hd s d t r : lim (fun k => handle_declarator E k d t) s r -> lim (fun k => k_hd k d t) s r.
Proof.
  intros [n H]. exists (S n). intros m Hm. destruct m; [lia|]. apply (H m). lia.
Qed.

Lemma lim_inst s d a r : lim (fun k => instantiate_struct E k d a) s r -> lim (fun k => k_inst k d a) s r.
Proof.
  intros [n H]. exists (S n). intros m Hm. destruct m; [lia|]. apply (H m). lia.
Qed.

Lemma lim_ext_step s addr args i r :
  lim (fun k => ext_step E k addr args i) s r -> lim (fun k => k_ext k addr args i) s r.
Proof.
  intros [n H]. exists (S n). intros m Hm. destruct m; [lia|]. apply (H m). lia.
Qed.

Lemma lim_catch_ok A B j (f : knot -> M A) (g : knot -> A -> M B) (h : knot -> M B) s a s1 r :
  lim f s (Ok a s1) -> lim (fun k => g k a) s1 r -> lim (fun k => catch j (f k) (g k) (h k)) s r.
Proof.
  intros [n Hn] [n' Hn']. exists (Nat.max n n'). intros m Hm. unfold catch.
  rewrite Hn by lia. apply Hn'. lia.
Qed.

Lemma lim_catch_jmp A B j (f : knot -> M A) (g : knot -> A -> M B) (h : knot -> M B) s s1 r :
  lim f s (Jmp j s1) -> lim h s1 r -> lim (fun k => catch j (f k) (g k) (h k)) s r.
Proof.
  intros [n Hn] [n' Hn']. exists (Nat.max n n'). intros m Hm. unfold catch.
  rewrite Hn, Z.eqb_refl by lia. apply Hn'. lia.
Qed.

(** ** Elimination *)

Definition kmono {A} (f : knot -> M A) : Prop := forall n m, (n <= m)%nat -> mle (f (K E n)) (f (K E m)).

Lemma kmono_ev t : kmono (fun k => k_ev k t).
Proof. intros n m H. apply K_mono_le, H. Qed.
Lemma kmono_stmts t : kmono (fun k => evaluate_stmts E k t).
Proof. intros n m H. apply mle_evaluate_stmts; apply K_mono_le, H. Qed.
Lemma kmono_chain l : kmono (fun k => evaluate_chain E k l).
Proof. intros n m H. apply mle_evaluate_chain; apply K_mono_le, H. Qed.
Lemma kmono_comparable t : kmono (fun k => comparable E k t).
Proof. intros n m H. apply mle_comparable; apply K_mono_le, H. Qed.
Lemma kmono_do_return v : kmono (fun k => do_return E k v).
Proof. intros n m H. apply mle_do_return; apply K_mono_le, H. Qed.
Lemma kmono_hd d t : kmono (fun k => k_hd k d t).
Proof. intros n m H. apply K_mono_le, H. Qed.
Lemma kmono_const A (x : M A) : kmono (fun _ => x).
Proof. intros n m H. apply mle_refl. Qed.
Lemma kmono_bind A B (f : knot -> M A) (g : knot -> A -> M B) :
  kmono f -> (forall a, kmono (fun k => g k a)) -> kmono (fun k => bind (f k) (g k)).
Proof. intros Hf Hg n m H. apply mle_bind; [apply Hf, H | intros a; apply (Hg a n m H)]. Qed.

(** A non-[Fuel] value at one depth is the limit. *)
Lemma kmono_lim A (f : knot -> M A) s r n : kmono f -> f (K E n) s = r -> r <> Fuel -> lim f s r.
Proof.
  intros Hf H Hr. exists n. intros m Hm. rewrite (Hf n m Hm s); congruence.
Qed.

Lemma lim_bind_inv A B (f : knot -> M A) (g : knot -> A -> M B) s r :
  kmono f -> r <> Fuel -> lim (fun k => bind (f k) (g k)) s r ->
  (exists a s1, lim f s (Ok a s1) /\ lim (fun k => g k a) s1 r) \/
  (exists x, lim f s x /\ is_ok x = false /\ x <> Fuel /\ r = recast x).
Proof.
  intros Hf Hr [n Hn].
  assert (Hx : f (K E n) s <> Fuel).
  { intros Hx. apply Hr. rewrite <- (Hn n (le_n n)). unfold bind. rewrite Hx. reflexivity. }
  pose proof (kmono_lim _ f s _ n Hf eq_refl Hx) as Hl.
  destruct (f (K E n) s) as [a s1| | | | | | | |] eqn:Ef.
  1: { left. exists a, s1. split; auto. exists n. intros m Hm. specialize (Hn m Hm). unfold bind in Hn.
       rewrite (Hf n m Hm s) in Hn by congruence. rewrite Ef in Hn. exact Hn. }
  all: try congruence.
  all: right; eexists; split; [exact Hl|]; split; [reflexivity|]; split; [congruence|].
  all: rewrite <- (Hn n (le_n n)); unfold bind; rewrite Ef; reflexivity.
Qed.

Lemma lim_bind_ok A B (f : knot -> M A) (g : knot -> A -> M B) s b s' :
  kmono f -> lim (fun k => bind (f k) (g k)) s (Ok b s') ->
  exists a s1, lim f s (Ok a s1) /\ lim (fun k => g k a) s1 (Ok b s').
Proof.
  intros Hf H. assert (Hr : Ok b s' <> Fuel) by discriminate.
  destruct (lim_bind_inv _ _ _ _ _ _ Hf Hr H) as [(a & s1 & H1 & H2)|(x & _ & H2 & _ & H3)]; eauto.
  destruct x; discriminate.
Qed.

Lemma lim_const_inv A (x : M A) s r : lim (fun _ => x) s r -> x s = r.
Proof. intros [n H]. exact (H n (le_n n)). Qed.

Lemma runs_lim s t r : runs E s t r -> lim (fun k => evaluate_1 E k t) s r.
Proof. intros H. apply runs_inv, H. Qed.

Lemma lim_ev_runs s t r : r <> Fuel -> lim (fun k => k_ev k t) s r -> runs E s t r.
Proof. intros Hr [n H]. apply (runs_intro E s t r n); auto. Qed.

End Lim.

(** Deterministic computation of state-only parts. *)
Lemma bind_eq A B (m : M A) (f : A -> M B) s a s1 : m s = Ok a s1 -> bind m f s = f a s1.
Proof. unfold bind. intros ->. reflexivity. Qed.
