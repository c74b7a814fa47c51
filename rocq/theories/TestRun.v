(** Helpers for the examples beside the theorems: states reached by concrete programs. *)
From Coq Require Import ZArith List String Bool.
From Verif Require Import CInt Tree SpecResolver State Eval TestEnv StepsFacts EvalInv SpecRun SpecControl
  SpecStmt RunFacts RunRules ExprFacts ControlFacts.
Import ListNotations.
Local Open Scope Z_scope.

(** The outcome of one expression and of one statement list, at a fixed recursion depth. *)
Definition outcome_at (n : nat) (s : state) (t : tree) : res tree := k_ev (K env0 n) t s.
Definition outcome_body_at (n : nat) (s : state) (t : tree) : res unit := evaluate_stmts env0 (K env0 n) t s.
Definition outcome := outcome_at 60.
Definition outcome_body := outcome_body_at 60.

Definition final_state {A} (r : res A) : state :=
  match r with Ok _ s | Jmp _ s | Die s | Abort s | Exit _ s => s | _ => s0 end.

(** Observations of an outcome that are easy to compute. *)
Inductive kind : Set := KOk | KJmp (i : Z) | KDie | KAbort | KExit (n : Z) | KUB | KFuel | KNoMemory (n : Z) | KUnmodelled.
Definition kind_of {A} (r : res A) : kind :=
  match r with
  | Ok _ _ => KOk | Jmp i _ => KJmp i | Die _ => KDie | Abort _ => KAbort | Exit n _ => KExit n
  | UB => KUB | Fuel => KFuel | NoMemory n _ => KNoMemory n | Unmodelled _ => KUnmodelled
  end.
Definition value {A} (r : res A) : option A := match r with Ok a _ => Some a | _ => None end.

(** The state after the statements [l], run from the initial state of the test environment. *)
Definition after (l : list tree) : state := final_state (outcome_body s0 (CHAIN_HEAD l)).

Lemma reachable_s0 : reachable env0 s0.
Proof.
  apply (reach_init env0 (fun _ => 170) []); [split; constructor|].
  assert (H : match eval_init env0 (start_state (fun _ => 170) []) with Ok _ _ => true | _ => false end = true)
    by (vm_compute; reflexivity).
  unfold s0. revert H. generalize (eval_init env0 (start_state (fun _ => 170) [])).
  intros [u s| | | | | | | |] H; try discriminate. destruct u. reflexivity.
Qed.

Lemma reachable_after_at n s t : reachable env0 s -> reachable env0 (final_state (outcome_body_at n s t)).
Proof.
  intros Hs. destruct (outcome_body_at n s t) eqn:H; try apply reachable_s0; cbn [final_state];
    (eapply reachable_steps; [exact Hs|]); eapply (stmts_steps env0 n t); unfold outcome_body_at in H; rewrite H; reflexivity.
Qed.
Lemma reachable_after l : reachable env0 (after l).
Proof. exact (reachable_after_at 60 s0 (CHAIN_HEAD l) reachable_s0). Qed.

Lemma reachable_outcome_at n s t : reachable env0 s -> reachable env0 (final_state (outcome_at n s t)).
Proof.
  intros Hs. destruct (outcome_at n s t) eqn:H; try apply reachable_s0; cbn [final_state];
    (eapply reachable_steps; [exact Hs|]); eapply (ev_steps env0 n t); unfold outcome_at in H; rewrite H; reflexivity.
Qed.
Lemma reachable_outcome s t : reachable env0 s -> reachable env0 (final_state (outcome s t)).
Proof. exact (reachable_outcome_at 60 s t). Qed.

Lemma outcome_runs_at n s t : kind_of (outcome_at n s t) <> KFuel -> runs env0 s t (outcome_at n s t).
Proof.
  intros H. apply (runs_intro env0 s t _ n); [reflexivity|]. intros H'. apply H. rewrite H'. reflexivity.
Qed.
Lemma outcome_body_runs_at n s t : kind_of (outcome_body_at n s t) <> KFuel -> runs_body env0 s t (outcome_body_at n s t).
Proof. intros H. split; [intros H'; apply H; rewrite H'; reflexivity|]. exists n. reflexivity. Qed.

Lemma outcome_ok_at n s t v : value (outcome_at n s t) = Some v ->
  runs env0 s t (Ok v (final_state (outcome_at n s t))).
Proof.
  intros H. apply (runs_intro env0 s t _ n); [|discriminate]. fold (outcome_at n s t).
  destruct (outcome_at n s t); try discriminate. injection H as ->. reflexivity.
Qed.
Lemma outcome_body_ok_at n s t v : value (outcome_body_at n s t) = Some v ->
  runs_body env0 s t (Ok v (final_state (outcome_body_at n s t))).
Proof.
  intros H. split; [discriminate|]. exists n. fold (outcome_body_at n s t).
  destruct (outcome_body_at n s t); try discriminate. injection H as ->. reflexivity.
Qed.
Lemma outcome_die_at n s t : kind_of (outcome_at n s t) = KDie -> runs env0 s t (Die (final_state (outcome_at n s t))).
Proof.
  intros H. apply (runs_intro env0 s t _ n); [|discriminate]. fold (outcome_at n s t).
  destruct (outcome_at n s t); try discriminate. reflexivity.
Qed.
Lemma outcome_jmp_at n s t i : kind_of (outcome_at n s t) = KJmp i ->
  runs env0 s t (Jmp i (final_state (outcome_at n s t))).
Proof.
  intros H. apply (runs_intro env0 s t _ n); [|discriminate]. fold (outcome_at n s t).
  destruct (outcome_at n s t); try discriminate. injection H as ->. reflexivity.
Qed.
Lemma outcome_ok s t v : value (outcome s t) = Some v -> runs env0 s t (Ok v (final_state (outcome s t))).
Proof. exact (outcome_ok_at 60 s t v). Qed.
Lemma outcome_body_ok s t v : value (outcome_body s t) = Some v ->
  runs_body env0 s t (Ok v (final_state (outcome_body s t))).
Proof. exact (outcome_body_ok_at 60 s t v). Qed.
Lemma outcome_die s t : kind_of (outcome s t) = KDie -> runs env0 s t (Die (final_state (outcome s t))).
Proof. exact (outcome_die_at 60 s t). Qed.
Lemma outcome_jmp s t i : kind_of (outcome s t) = KJmp i -> runs env0 s t (Jmp i (final_state (outcome s t))).
Proof. exact (outcome_jmp_at 60 s t i). Qed.

(** Storage can be checked by computation. *)
Definition storageb (E : env) (s : state) (a n : Z) : bool :=
  existsb (fun b => (b_base b <=? a) && (a + n <=? b_base b + b_size b) &&
                    (negb (b_tracked b) || zmem (b_base b) (roots E s))) (blocks s).
Lemma storageb_ok E s a n : storageb E s a n = true -> storage E s a n.
Proof.
  unfold storageb. rewrite existsb_exists. intros (b & Hb & H). apply andb_true_iff in H as [H H3].
  apply andb_true_iff in H as [H1 H2]. apply Z.leb_le in H1, H2. exists b. repeat split; auto.
  apply orb_true_iff in H3 as [H3|H3]; [left; destruct (b_tracked b); auto; discriminate | right; apply zmem_In, H3].
Qed.

(** So can the integer a value stands for. *)
Definition numberb (E : env) (s : state) (t : tree) (z : Z) : bool :=
  match t with
  | T_INTEGER z' => z =? z'
  | T_LIVE_VAR (D_T c) a _ _ => integer_type c && storageb E s a (width c) && (z =? as_long (value_at s c a))
  | T_LIVE_VAR (D_T_PTR _) a _ _ => storageb E s a 8 && (z =? as_long (unsigned_at (mem s) a 8))
  | _ => false
  end.
Lemma numberb_ok E s t z : numberb E s t z = true -> number E s t z.
Proof.
  destruct t; try discriminate; cbn [numberb].
  - intros H. apply Z.eqb_eq in H. subst. constructor.
  - destruct t; try discriminate; intros H.
    + apply andb_true_iff in H as [H H3]. apply andb_true_iff in H as [H1 H2]. apply Z.eqb_eq in H3. subst z.
      constructor; [exact H1|]. apply storageb_ok, H2.
    + apply andb_true_iff in H as [H2 H3]. apply Z.eqb_eq in H3. subst z.
      constructor. apply storageb_ok, H2.
Qed.

(** The value of a variable as an operand. *)
Lemma int_value_var s x c a arr n z : lookup s x = T_LIVE_VAR (D_T c) a arr n ->
  numberb env0 s (lookup s x) z = true -> int_value env0 s (T_IDENTIFIER x) (Ok z (after_tick env0 s)).
Proof.
  intros Hx H. left. exists (lookup s x), s. split.
  - apply run_identifier. rewrite Hx. discriminate.
  - apply numberb_ok in H. rewrite Hx in *. rewrite <- to_int_spec. unfold to_int. inversion H; subst.
    match goal with Hi : integer_type c = true |- _ => rename Hi into H1 end.
    change (is_intty c) with (integer_type c). rewrite H1. unfold bind. rewrite make_int_spec, H1.
    rewrite (storage_valid env0) by (apply storage_tick; assumption).
    reflexivity.
Qed.

(** The same for the condition of a loop. *)
Lemma loop_cond_variable s x c a arr n z : lookup s x = T_LIVE_VAR (D_T c) a arr n ->
  numberb env0 s (lookup s x) z = true -> loop_cond env0 s (T_IDENTIFIER x) (Ok z (after_tick env0 s)).
Proof.
  intros Hx H. left. exists (lookup s x), s. split; [apply run_identifier; rewrite Hx; discriminate|].
  destruct (int_value_var s x c a arr n z Hx H) as [(v & s1 & H1 & H2)|(o & _ & H1)]; [|destruct o; contradiction].
  assert (Hl : runs env0 s (T_IDENTIFIER x) (Ok (lookup s x) s)) by (apply run_identifier; rewrite Hx; discriminate).
  pose proof (runs_fun _ _ _ _ _ Hl H1) as Hf. injection Hf as <- <-.
  left. exists (lookup s x), s. split; [|exact H2]. rewrite Hx.
  apply (runs_intro env0 s _ _ 1%nat); [reflexivity|discriminate].
Qed.

(** Facts about scopes by computation. *)
Lemma not_broke_b s : match stack s with [] => true | c :: _ => negb (c_break c) end = true -> ~ broke s.
Proof. intros H (c & cs & Hs & Hb). rewrite Hs, Hb in H. discriminate. Qed.
Lemma broke_b s : match stack s with [] => false | c :: _ => c_break c end = true -> broke s.
Proof. unfold broke. destruct (stack s) as [|c cs]; [discriminate|]. eauto. Qed.
Lemma close_scope_b s : kind_of (close_scope tt s) = KOk -> close_scope tt s = Ok tt (final_state (close_scope tt s)).
Proof. destruct (close_scope tt s) as [u s'| | | | | | | |]; try discriminate. destruct u. reflexivity. Qed.

(** The current scope has no entry for [x]. *)
Definition no_nameb (s : state) (x : string) : bool :=
  match stack s with [] => false | c :: _ => negb (existsb (String.eqb x) (map fst (c_idmap c))) end.
Lemma no_nameb_ok s x : no_nameb s x = true -> exists c cs, stack s = c :: cs /\ ~ In x (map fst (c_idmap c)).
Proof.
  unfold no_nameb. destruct (stack s) as [|c cs]; [discriminate|]. intros H. exists c, cs. split; [reflexivity|]. intros Hi.
  apply negb_true_iff in H. assert (Ht : existsb (String.eqb x) (map fst (c_idmap c)) = true); [|congruence].
  apply existsb_exists. exists x. split; [exact Hi|apply String.eqb_refl].
Qed.
