(** Proofs about names and scopes. *)
From Coq Require Import ZArith List String Bool Lia.
From Verif Require Import CInt Tree SpecResolver State Eval StepsFacts EvalInv SpecScope ScopeFacts SpecRun RunFacts RunRules
  SpecControl SpecStmt ControlFacts CallFacts SpecNames.
Import ListNotations.
Local Open Scope Z_scope.

Lemma entry_resolve m x v : v <> NULL -> (entry m x v <-> resolve_id x m = v).
Proof.
  intros Hv. split.
  - intros (m1 & m2 & -> & H). induction m1 as [|[y t] m1 IH]; cbn.
    + rewrite String.eqb_refl. reflexivity.
    + cbn in H. destruct (String.eqb_spec y x); [subst; exfalso; apply H; left; reflexivity|]. apply IH. tauto.
  - induction m as [|[y t] m IH]; cbn; intros H; [congruence|].
    destruct (String.eqb_spec y x) as [->|Hy].
    + exists [], m. subst. split; [reflexivity|intros []].
    + destruct (IH H) as (m1 & m2 & -> & H1). exists ((y, t) :: m1), m2. split; [reflexivity|].
      cbn. intros [H2|H2]; auto.
Qed.

Lemma declares_resolve c x : declares c x <-> resolve_id x (c_idmap c) <> NULL.
Proof.
  split.
  - intros (v & Hv & H). apply entry_resolve in H; congruence.
  - intros H. exists (resolve_id x (c_idmap c)). split; auto. apply entry_resolve; auto.
Qed.

Lemma resolve_maps_cons x m ms : resolve_maps x (m :: ms) =
  if is_NULL (resolve_id x m) then resolve_maps x ms else resolve_id x m.
Proof. cbn. destruct (resolve_id x m); reflexivity. Qed.

Lemma is_NULL_spec t : is_NULL t = true <-> t = NULL.
Proof. destruct t; cbn; split; congruence. Qed.

Lemma found_resolve l x v : v <> NULL -> (found_in l x v <-> resolve_maps x (map c_idmap l) = v).
Proof.
  intros Hv. split.
  - intros (inner & c & outer & -> & Hi & _ & He). apply entry_resolve in He; auto.
    induction inner as [|d inner IH]; cbn [map app]; rewrite resolve_maps_cons.
    + rewrite He. destruct (is_NULL v) eqn:Hn; [apply is_NULL_spec in Hn; congruence|reflexivity].
    + assert (Hd : is_NULL (resolve_id x (c_idmap d)) = true).
      { destruct (is_NULL (resolve_id x (c_idmap d))) eqn:Hd; auto. exfalso. apply (Hi d); [left; reflexivity|].
        apply declares_resolve. intros H. apply is_NULL_spec in H. congruence. }
      rewrite Hd. apply IH. intros; apply Hi; right; auto.
  - induction l as [|c l IH]; cbn [map]; [cbn; congruence|]. rewrite resolve_maps_cons.
    destruct (is_NULL (resolve_id x (c_idmap c))) eqn:Hd; intros H.
    + destruct (IH H) as (inner & d & outer & -> & Hi & _ & He). exists (c :: inner), d, outer.
      split; [reflexivity|]. split; [|auto]. intros e [<-|He']; auto. intros Hc. apply declares_resolve in Hc.
      apply is_NULL_spec in Hd. congruence.
    + exists [], c, l. split; [reflexivity|]. split; [intros e []|]. split; auto. apply entry_resolve; auto.
Qed.

Lemma means_lookup s x v : v <> NULL -> (means s x v <-> lookup s x = v).
Proof. intros Hv. apply found_resolve, Hv. Qed.

Lemma identifier_runs E s x r : runs E s (T_IDENTIFIER x) r <->
  r = if is_NULL (lookup s x) then Die s else Ok (lookup s x) s.
Proof.
  assert (H : runs E s (T_IDENTIFIER x) (if is_NULL (lookup s x) then Die s else Ok (lookup s x) s)).
  { apply (runs_intro E s _ _ 1%nat); [|destruct (is_NULL _); discriminate].
    cbn [K k_ev evaluate_1]. unfold eval_identifier, resolve_identifier_global, bind, gets, lookup.
    destruct (resolve_maps x (map c_idmap (scope_ctxs s))); reflexivity. }
  split; [intros H'; eapply runs_fun; eauto|intros ->; exact H].
Qed.

Lemma innermost E s x v s' : runs E s (T_IDENTIFIER x) (Ok v s') <-> means s x v /\ s' = s.
Proof.
  rewrite identifier_runs. destruct (is_NULL (lookup s x)) eqn:Hn.
  - split; [discriminate|]. intros [(a & b & c & H1 & H2 & Hv & H3) _]. exfalso. apply is_NULL_spec in Hn.
    assert (means s x v) by (exists a, b, c; auto). apply means_lookup in H; congruence.
  - assert (Hl : lookup s x <> NULL) by (intros H; apply is_NULL_spec in H; congruence).
    split.
    + intros H. injection H as -> ->. split; auto. apply means_lookup; auto.
    + intros [H ->]. assert (Hv : v <> NULL) by (destruct H as (?&?&?&_&_&H&_); exact H).
      apply means_lookup in H; auto. congruence.
Qed.

Lemma unbound E s x : (forall v, ~ means s x v) <-> runs E s (T_IDENTIFIER x) (Die s).
Proof.
  rewrite identifier_runs. destruct (is_NULL (lookup s x)) eqn:Hn.
  - split; auto. intros _ v Hm. assert (Hv : v <> NULL) by (destruct Hm as (?&?&?&_&_&H&_); exact H).
    apply means_lookup in Hm; auto. apply is_NULL_spec in Hn. congruence.
  - split; [|discriminate]. intros H. exfalso. apply (H (lookup s x)). apply means_lookup; auto.
    intros H'. apply is_NULL_spec in H'. congruence.
Qed.

(** ** One entry for each name *)

Definition names_all (s : state) : Prop := Forall (fun c => uniq (c_idmap c)) (scope_ctxs s).

Lemma names_all_alt s : names_all s <-> names_ok s /\ match incl s with Some c => uniq (c_idmap c) | None => True end.
Proof.
  unfold names_all, names_ok, scope_ctxs. rewrite Forall_app. destruct (incl s).
  - split; intros [H1 H2]; split; auto. inversion H2; auto.
  - split; intros [H1 H2]; split; auto.
Qed.

Lemma names_all_step E s s' : names_all s -> step E s s' -> names_all s'.
Proof.
  rewrite !names_all_alt. intros [H1 H2] Hs. split; [eapply names_ok_step; eauto|].
  unfold names_ok in H1. destruct Hs; cbn; auto.
  rewrite H in H1. inversion H1; auto.
Qed.

Lemma names_all_steps E s s' : steps E s s' -> names_all s -> names_all s'.
Proof. apply steps_invariant. apply names_all_step. Qed.

Lemma names_all_reachable E s : reachable E s -> names_all s.
Proof.
  induction 1.
  - eapply names_all_steps; [eapply init_steps; eauto|]. constructor.
  - eapply names_all_step; eauto.
Qed.

Lemma filter_length_app A (f : A -> bool) l l' :
  List.length (filter f (l ++ l')) = (List.length (filter f l) + List.length (filter f l'))%nat.
Proof. rewrite filter_app, app_length. reflexivity. Qed.

Lemma not_in_filter x (m : list (string * tree)) :
  List.length (filter (fun e => String.eqb (fst e) x) m) = 0%nat -> ~ In x (map fst m).
Proof.
  induction m as [|[y t] m IH]; cbn; [tauto|]. destruct (String.eqb_spec y x); cbn; [discriminate|].
  intros H [H1|H1]; auto. apply IH; auto.
Qed.

Lemma one_entry E s c x v m1 m2 : reachable E s -> In c (visible s) -> v <> NULL ->
  c_idmap c = m1 ++ (x, v) :: m2 -> ~ In x (map fst m1) -> ~ In x (map fst m2).
Proof.
  intros Hr Hc Hv Hm H1. apply names_all_reachable in Hr. unfold names_all in Hr. rewrite Forall_forall in Hr.
  specialize (Hr c Hc x). assert (He : entry (c_idmap c) x v) by (exists m1, m2; auto).
  apply entry_resolve in He; auto. rewrite He in Hr. specialize (Hr Hv). rewrite Hm, filter_length_app in Hr. cbn in Hr.
  rewrite String.eqb_refl in Hr. cbn in Hr. apply not_in_filter. lia.
Qed.

(** A name keeps its meaning in its scope. *)
Lemma binding_kept E s t r s' c c' x v : reachable E s -> runs E s t r -> final r = Some s' ->
  In c (stack s) -> v <> NULL -> entry (c_idmap c) x v ->
  In c' (stack s') -> c_id c' = c_id c -> entry (c_idmap c') x v.
Proof.
  intros Hr H Hf Hc Hv He Hc' Hi. apply entry_resolve; auto. apply entry_resolve in He; auto.
  pose proof (runs_steps _ _ _ _ _ H Hf) as Hs.
  pose proof (wf_reachable _ _ Hr) as (Hids & _).
  assert (Hb : binds (c_id c) x v s).
  { split.
    - pose proof (reachable_ids_lt _ _ Hr) as Hl. unfold ids_lt in Hl. rewrite Forall_forall in Hl. apply Hl, Hc.
    - intros d Hd Hid. replace d with c; auto.
      destruct Hids as [_ Hn]. clear -Hn Hd Hid Hc.
      induction (stack s) as [|e l IH]; [contradiction|]. cbn in Hn. inversion Hn; subst.
      destruct Hd as [->|Hd], Hc as [->|Hc]; auto.
      + exfalso. apply H1. rewrite Hid. apply in_map, Hc.
      + exfalso. apply H1. rewrite <- Hid. apply in_map, Hd. }
  apply (binds_steps E) with (s' := s') in Hb; auto. destruct Hb as [_ Hb]. apply Hb; auto.
Qed.

(** ** The names a called function sees *)

Lemma found_skip pre l x v : (forall c, In c pre -> ~ declares c x) -> (found_in (pre ++ l) x v <-> found_in l x v).
Proof.
  intros Hp. split.
  - intros H. assert (Hv : v <> NULL) by (destruct H as (?&?&?&_&_&H&_); exact H).
    apply found_resolve in H; auto. apply found_resolve; auto.
    induction pre as [|c pre IH]; auto. cbn [map app] in H. rewrite resolve_maps_cons in H.
    destruct (is_NULL (resolve_id x (c_idmap c))) eqn:Hd.
    + apply IH; auto. intros; apply Hp; right; auto.
    + exfalso. apply (Hp c); [left; reflexivity|]. apply declares_resolve. intros H'. apply is_NULL_spec in H'. congruence.
  - intros (inner & c & outer & -> & Hi & H). exists (pre ++ inner), c, outer.
    split; [apply app_assoc|]. split; [|exact H]. intros d Hd. apply in_app_iff in Hd as [Hd|Hd]; auto.
Qed.

Lemma call_scopes E name params args s s2 : reachable E s -> entered E name params args s s2 -> breaks s2 = breaks s ->
  exists c, stack s2 = c :: stack s /\ c_id c = fresh s /\
    forall x v, ~ declares c x -> (found_in (stack s2) x v <-> found_in (stack s) x v).
Proof.
  intros Hr He Hb. destruct (entered_current _ _ _ _ _ _ Hr He Hb) as (c & Hs & Hc & _). exists c. split; [exact Hs|]. split; [exact Hc|]. intros x v Hx. split.
  - intros H'. rewrite Hs in H'. apply (proj1 (found_skip [c] _ x v ltac:(intros d [<-|[]]; exact Hx))). exact H'.
  - intros H'. rewrite Hs. apply (proj2 (found_skip [c] _ x v ltac:(intros d [<-|[]]; exact Hx))). exact H'.
Qed.

Lemma call_scopes_later E name params args s s2 s3 pre c post :
  reachable E s -> entered E name params args s s2 -> steps E s2 s3 ->
  stack s3 = pre ++ c :: post -> c_id c = fresh s ->
  post = stack s /\
  forall x v, (forall d, In d (pre ++ [c]) -> ~ declares d x) -> (found_in (stack s3) x v <-> found_in (stack s) x v).
Proof.
  intros Hr He Hst Hs Hc.
  assert (Hbel : below (fresh s) (stack s) s3).
  { eapply below_steps; [exact Hst|].
    destruct He as [[_ ->]|[_ He]]; [apply below_open, (reachable_ids_lt _ _ Hr)|].
    eapply below_steps; [eapply params_bound_steps; exact He|]. apply below_open, (reachable_ids_lt _ _ Hr). }
  destruct Hbel as [_ Hbel]. destruct (Hbel pre c post Hs Hc) as [_ ->]. split; auto.
  intros x v Hx. rewrite Hs. replace (pre ++ c :: stack s) with ((pre ++ [c]) ++ stack s) by (rewrite <- app_assoc; reflexivity).
  apply found_skip, Hx.
Qed.
