(** Invariants of the evaluator, by induction over the elementary steps of StepsFacts.v. *)
From Coq Require Import ZArith List String Bool Lia.
From Verif Require Import CInt Tree SpecResolver State Eval StepsFacts.
Import ListNotations.
Local Open Scope Z_scope.

(** ** Identities of contexts *)

Definition ids_ok (s : state) : Prop :=
  Forall (fun c => c_id c < fresh s) (stack s) /\ NoDup (map c_id (stack s)).

Lemma retval_ids v cs : map c_id (set_retval v cs) = map c_id cs.
Proof.
  induction cs as [|c cs IH]; cbn; [reflexivity|].
  destruct (c_isfn c); cbn; congruence.
Qed.

Lemma with_top_ids f s : (forall c, c_id (f c) = c_id c) ->
  map c_id (stack (with_top f s)) = map c_id (stack s).
Proof.
  intros H. unfold with_top. cbn. destruct (stack s); cbn; [reflexivity|]. rewrite H. reflexivity.
Qed.

Lemma ids_ok_alt s : ids_ok s <->
  (forall i, In i (map c_id (stack s)) -> i < fresh s) /\ NoDup (map c_id (stack s)).
Proof.
  unfold ids_ok. rewrite Forall_forall. split; intros [H1 H2]; split; auto.
  - intros i Hi. apply in_map_iff in Hi as (c & <- & Hc). auto.
  - intros c Hc. apply H1, in_map, Hc.
Qed.

Lemma ids_ok_step E s s' : ids_ok s -> step E s s' -> ids_ok s'.
Proof.
  rewrite !ids_ok_alt. intros (H1 & H2) Hs.
  assert (Hsame : map c_id (stack s') = map c_id (stack s) -> fresh s <= fresh s' ->
            (forall i, In i (map c_id (stack s')) -> i < fresh s') /\ NoDup (map c_id (stack s'))).
  { intros He Hf. rewrite He. split; auto. intros i Hi. apply H1 in Hi. lia. }
  destruct Hs; try (apply Hsame; [reflexivity | cbn; lia]);
    try (apply Hsame; [apply with_top_ids; reflexivity | cbn; lia]).
  - cbn. split.
    + intros i [<-|Hi]; [lia|]. apply H1 in Hi. lia.
    + constructor; auto. intros Hi. apply H1 in Hi. lia.
  - cbn. rewrite H in *. cbn in *. split; auto. inversion H2; auto.
  - apply Hsame; [|cbn; lia]. cbn. rewrite H. reflexivity.
  - apply Hsame; [|cbn; lia]. cbn. apply retval_ids.
Qed.

Lemma fresh_mono E s s' : steps E s s' -> fresh s <= fresh s'.
Proof.
  intros H. revert s s' H. intros s s' H. induction H; [lia|].
  assert (fresh s' <= fresh s'') by (destruct H0; cbn; lia). lia.
Qed.

Lemma breaks_mono E s s' : steps E s s' -> breaks s <= breaks s'.
Proof.
  intros H. induction H; [lia|].
  assert (breaks s' <= breaks s'') by (destruct H0; cbn; lia). lia.
Qed.

(** ** Blocks *)

Definition apart (b b' : block) : Prop := disjoint_blocks (b_base b) (b_size b) b' = true.

Lemma apart_sym b b' : apart b b' -> apart b' b.
Proof.
  unfold apart, disjoint_blocks. rewrite !orb_true_iff, !Z.leb_le. tauto.
Qed.

Definition wf_blocks (s : state) : Prop := ForallOrdPairs apart (blocks s).

Lemma FOP_filter A (R : A -> A -> Prop) f l : ForallOrdPairs R l -> ForallOrdPairs R (filter f l).
Proof.
  induction 1; cbn; [constructor|]. destruct (f a); auto. constructor; auto.
  rewrite Forall_forall in *. intros x Hx. apply filter_In in Hx. apply H. tauto.
Qed.

Lemma FOP_map_mark a l : ForallOrdPairs apart l -> ForallOrdPairs apart (map (mark a) l).
Proof.
  induction 1; cbn; constructor; auto.
  rewrite Forall_forall in *. intros x Hx. apply in_map_iff in Hx as (y & <- & Hy).
  apply H in Hy. unfold apart, disjoint_blocks, mark in *.
  destruct (b_base a0 =? a), (b_base y =? a); exact Hy.
Qed.

Lemma wf_blocks_step E s s' : wf_blocks s -> step E s s' -> wf_blocks s'.
Proof.
  unfold wf_blocks. intros H Hs. destruct Hs; cbn; auto.
  - apply FOP_filter, H.
  - constructor; auto. destruct H0 as (_ & _ & Hd). rewrite forallb_forall in Hd.
    rewrite Forall_forall. intros b Hb. unfold apart. cbn. auto.
  - apply FOP_map_mark, H.
  - apply FOP_filter, H.
Qed.

(** Two blocks of the same base are the same. *)
Lemma same_base s b b' : wf_blocks s -> In b (blocks s) -> In b' (blocks s) ->
  b_base b = b_base b' -> b = b'.
Proof.
  unfold wf_blocks. intros H. induction H as [|x l Hx Hl IH]; [contradiction|].
  rewrite Forall_forall in Hx. intros [->|H1] [->|H2] Hb; auto.
  - apply Hx in H2. unfold apart, disjoint_blocks in H2.
    apply orb_true_iff in H2 as [H2|H2]; apply Z.leb_le in H2; lia.
  - apply Hx in H1. unfold apart, disjoint_blocks in H1.
    apply orb_true_iff in H1 as [H1|H1]; apply Z.leb_le in H1; lia.
Qed.

(** ** Allocations of the roots *)

Definition wf_roots (E : env) (s : state) : Prop :=
  forall a, In a (roots E s) -> exists n, In (mkblock a n true) (blocks s).

Lemma zmem_In x l : zmem x l = true <-> In x l.
Proof.
  unfold zmem. rewrite existsb_exists. split.
  - intros (y & Hy & He). apply Z.eqb_eq in He. subst. exact Hy.
  - intros H. exists x. split; auto. apply Z.eqb_refl.
Qed.

Lemma in_tick E s b : In b (blocks s) -> In (b_base b) (roots E s) -> In b (blocks (after_tick E s)).
Proof.
  intros Hb Hr. cbn. apply filter_In. split; auto. unfold collected.
  apply zmem_In in Hr. rewrite Hr, andb_false_r. reflexivity.
Qed.

Lemma mark_true a b n : mark b (mkblock a n true) = mkblock a n true.
Proof. unfold mark. cbn. destruct (a =? b); reflexivity. Qed.

Lemma retval_allocs v cs : flat_map c_allocs (set_retval v cs) = flat_map c_allocs cs.
Proof.
  induction cs as [|c cs IH]; cbn; [reflexivity|].
  destruct (c_isfn c); cbn; congruence.
Qed.

Lemma with_top_allocs f s : (forall c, c_allocs (f c) = c_allocs c) ->
  flat_map c_allocs (stack (with_top f s)) = flat_map c_allocs (stack s).
Proof.
  intros H. unfold with_top. cbn. destruct (stack s); cbn; [reflexivity|]. rewrite H. reflexivity.
Qed.

Lemma in_app3 A (a : A) x y z : In a (x ++ y ++ z) <-> In a x \/ In a y \/ In a z.
Proof. rewrite !in_app_iff. tauto. Qed.

Lemma free_keeps_tracked s b a n : wf_blocks s ->
  find (fun b' => b_base b' =? b_base b) (blocks s) = Some b -> b_tracked b = false ->
  In (mkblock a n true) (blocks s) ->
  In (mkblock a n true) (filter (fun b' => negb (b_base b' =? b_base b)) (blocks s)).
Proof.
  intros Hw Hf Ht Hin. apply filter_In. split; auto. cbn.
  destruct (Z.eqb_spec a (b_base b)) as [->|]; auto.
  apply find_some in Hf as [Hb _].
  assert (b = mkblock (b_base b) n true) by (eapply same_base; eauto).
  rewrite H in Ht. discriminate.
Qed.

Lemma wf_roots_step E s s' : wf_blocks s -> wf_roots E s -> step E s s' -> wf_roots E s'.
Proof.
  intros Hw Hr Hs.
  assert (Hsub : (forall a, In a (roots E s') -> In a (roots E s)) ->
                 (forall a n, In a (roots E s) -> In (mkblock a n true) (blocks s) ->
                    In (mkblock a n true) (blocks s')) -> wf_roots E s').
  { intros H1 H2 a Ha. apply H1 in Ha. destruct (Hr a Ha) as [n Hn]. exists n. auto. }
  destruct Hs; try (apply Hsub; cbn; solve [auto]).
  - apply Hsub; auto. intros a n Ha Hn. apply in_tick; auto.
  - apply Hsub; [|cbn; auto]. intros a. unfold roots. cbn. rewrite H. cbn. rewrite !in_app_iff. tauto.
  - intros b Hb. unfold roots in Hb. cbn in Hb.
    destruct (stack s) as [|c cs] eqn:Es; [congruence|]. cbn in Hb.
    assert (Hcase : b = a \/ In b (roots E s)).
    { unfold roots. rewrite Es. cbn. rewrite !in_app_iff in *. cbn in Hb.
      destruct Hb as [[[Hb|[Hb|[]]]|Hb]|Hb]; [right; tauto | left; congruence | right; tauto | right; tauto]. }
    destruct Hcase as [->|Hb'].
    + destruct H as [n Hn]. exists n. cbn. apply in_map_iff. exists (mkblock a n false).
      split; auto. unfold mark. cbn. rewrite Z.eqb_refl. reflexivity.
    + destruct (Hr b Hb') as [n Hn]. exists n. cbn. apply in_map_iff.
      exists (mkblock b n true). split; auto. apply mark_true.
  - apply Hsub; [|cbn; auto]. intros a. unfold roots. cbn. rewrite H. cbn. auto.
  - apply Hsub; [|cbn; auto]. intros a. unfold roots. rewrite with_top_allocs; auto.
  - apply Hsub; [|cbn; auto]. intros a. unfold roots. rewrite with_top_allocs; auto.
  - apply Hsub; [|cbn; auto]. intros a. unfold roots. rewrite with_top_allocs; auto.
  - apply Hsub; [|cbn; auto]. intros a. unfold roots.
    change (stack (set_breaks ?f ?x)) with (stack x). rewrite with_top_allocs; auto.
  - apply Hsub; [|cbn; auto]. intros a. unfold roots. cbn. rewrite retval_allocs. auto.
  - apply Hsub; [|cbn; auto]. intros a. unfold roots. cbn. rewrite H. cbn.
    rewrite !in_app_iff. destruct (e_rooted E l); cbn; tauto.
  - apply Hsub; [|cbn; auto]. intros a. unfold roots. cbn. rewrite !in_app_iff. tauto.
  - apply Hsub; [|cbn; auto]. intros a. unfold roots. cbn. rewrite H. cbn. rewrite !in_app_iff. tauto.
  - apply Hsub; [cbn; auto|]. intros a n _ Hn. cbn. apply free_keeps_tracked; auto.
Qed.

(** The combined invariant. *)
Definition wf (E : env) (s : state) : Prop := ids_ok s /\ wf_blocks s /\ wf_roots E s.

Lemma wf_step E s s' : wf E s -> step E s s' -> wf E s'.
Proof.
  intros (H1 & H2 & H3) Hs. repeat split.
  - eapply ids_ok_step; eauto.
  - apply (ids_ok_step E s s' H1 Hs).
  - eapply wf_blocks_step; eauto.
  - eapply wf_roots_step; eauto.
Qed.

Lemma wf_steps E s s' : steps E s s' -> wf E s -> wf E s'.
Proof. apply steps_invariant. apply wf_step. Qed.

(** ** Allocations stay with their context *)

Definition holds_alloc (i a n : Z) (s : state) : Prop :=
  i < fresh s /\
  forall c, In c (stack s) -> c_id c = i -> In a (c_allocs c) /\ In (mkblock a n true) (blocks s).

Lemma in_retval v c cs : In c (set_retval v cs) ->
  exists c0, In c0 cs /\ c_id c = c_id c0 /\ c_allocs c = c_allocs c0 /\ c_idmap c = c_idmap c0.
Proof.
  induction cs as [|d cs IH]; cbn; [contradiction|].
  destruct (c_isfn d) eqn:Ed; cbn; intros [<-|H].
  - exists d. auto.
  - exists c. auto.
  - exists d. auto.
  - destruct (IH H) as (c0 & H0 & H1). exists c0. auto.
Qed.

Lemma in_with_top f s c : In c (stack (with_top f s)) ->
  exists c0, In c0 (stack s) /\ (c = c0 \/ c = f c0).
Proof.
  unfold with_top. cbn. destruct (stack s) as [|d ds]; cbn; [contradiction|].
  intros [<-|H]; [exists d; auto | exists c; auto].
Qed.

Lemma alloc_in_roots E s c a : In c (stack s) -> In a (c_allocs c) -> In a (roots E s).
Proof.
  intros Hc Ha. unfold roots. apply in_app_iff. left. apply in_flat_map. exists c. auto.
Qed.

Lemma holds_alloc_step E i a n s s' :
  wf E s -> holds_alloc i a n s -> step E s s' -> holds_alloc i a n s'.
Proof.
  intros (Hi & Hw & _) [Hf H] Hs.
  assert (Hsame : fresh s <= fresh s' ->
     (forall c, In c (stack s') -> c_id c = i ->
        exists c0, In c0 (stack s) /\ c_id c0 = i /\ (forall x, In x (c_allocs c0) -> In x (c_allocs c))) ->
     (In a (roots E s) -> In (mkblock a n true) (blocks s) -> In (mkblock a n true) (blocks s')) ->
     holds_alloc i a n s').
  { intros H1 H2 H3. split; [lia|]. intros c Hc Hid.
    destruct (H2 c Hc Hid) as (c0 & Hc0 & Hid0 & Hsub).
    destruct (H c0 Hc0 Hid0) as [Ha Hb]. split; auto. apply H3; auto.
    eapply alloc_in_roots; eauto. }
  destruct Hs.
  all: try (apply Hsame; [cbn; lia | intros c0 Hc0 Hid0; exists c0; auto | cbn; auto]; fail).
  all: try (apply Hsame; [cbn; lia | | cbn; auto];
            intros c0 Hc0 Hid0; apply in_with_top in Hc0 as (c1 & Hc1 & [->| ->]); exists c1; auto; fail).
  - apply Hsame; [cbn; lia | intros c0 Hc0 Hid0; exists c0; auto |].
    intros Hr Hb. apply in_tick; auto.
  - split; [cbn; lia|]. cbn. intros c [<-|Hc] Hid; [cbn in Hid; lia|]. auto.
  - apply Hsame; [cbn; lia | | cbn; auto]. cbn. intros c0 Hc0 Hid0. exists c0. rewrite H0.
    split; [right; exact Hc0 | auto].
  - apply Hsame; [cbn; lia | | ].
    + cbn [stack set_blocks]. intros c0 Hc0 Hid0.
      apply in_with_top in Hc0 as (c1 & Hc1 & [->| ->]); exists c1; auto.
      split; auto. split; auto. cbn. intros x Hx. apply in_app_iff. auto.
    + intros _ Hb. cbn. apply in_map_iff. eexists; split; [apply mark_true|exact Hb].
  - apply Hsame; [cbn; lia | | cbn; auto]. cbn. intros c0 [<-|Hc0] Hid0; [exists c | exists c0]; rewrite H0; cbn; auto.
  - apply Hsame; [cbn; lia | | cbn; auto]. cbn. intros c0 Hc0 Hid0.
    apply in_retval in Hc0 as (c1 & Hc1 & H1 & H2 & _). exists c1. rewrite <- H1, H2. auto.
  - apply Hsame; [cbn; lia | intros c0 Hc0 Hid0; exists c0; auto |].
    intros _ Hb. cbn. apply free_keeps_tracked; auto.
Qed.

Lemma holds_alloc_steps E i a n s s' :
  steps E s s' -> wf E s -> holds_alloc i a n s -> holds_alloc i a n s'.
Proof.
  intros Hs Hw Hh.
  assert (wf E s' /\ holds_alloc i a n s'); [|tauto].
  revert Hs. generalize (conj Hw Hh). clear Hw Hh. intros H Hs. revert H.
  apply (steps_invariant E (fun s => wf E s /\ holds_alloc i a n s)) with (s := s); auto.
  intros s1 s2 [H1 H2] Hst. split; [eapply wf_step; eauto | eapply holds_alloc_step; eauto].
Qed.

(** ** Names *)

(** A name that is bound is bound by one entry only. *)
Definition uniq (m : list (string * tree)) : Prop :=
  forall x, resolve_id x m <> NULL -> List.length (filter (fun e => String.eqb (fst e) x) m) = 1%nat.

Lemma resolve_id_app x m y t : resolve_id x (m ++ [(y, t)]) =
  if existsb (fun e => String.eqb (fst e) x) m then resolve_id x m
  else if String.eqb y x then t else NULL.
Proof.
  induction m as [|[z u] m IH]; cbn; [destruct (String.eqb y x); reflexivity|].
  destruct (String.eqb z x); cbn; auto.
Qed.

Lemma resolve_id_absent x m : existsb (fun e => String.eqb (fst e) x) m = false -> resolve_id x m = NULL.
Proof.
  induction m as [|[z u] m IH]; cbn; auto. destruct (String.eqb z x); cbn; [discriminate|auto].
Qed.

Lemma filter_none A (f : A -> bool) l : existsb f l = false -> filter f l = [].
Proof.
  induction l; cbn; auto. destruct (f a); cbn; [discriminate|auto].
Qed.

Lemma uniq_app m x t : uniq m -> resolve_id x m = NULL -> uniq (m ++ [(x, t)]).
Proof.
  intros Hu Hx y Hy. rewrite resolve_id_app in Hy. rewrite filter_app, app_length. cbn.
  destruct (existsb (fun e => String.eqb (fst e) y) m) eqn:Ee.
  - destruct (String.eqb_spec x y); [subst; congruence|]. rewrite (Hu y Hy). reflexivity.
  - rewrite (filter_none _ _ _ Ee). destruct (String.eqb x y); [reflexivity|congruence].
Qed.

Definition names_ok (s : state) : Prop := Forall (fun c => uniq (c_idmap c)) (stack s).

Lemma names_ok_step E s s' : names_ok s -> step E s s' -> names_ok s'.
Proof.
  unfold names_ok. rewrite !Forall_forall. intros H Hs.
  destruct Hs; cbn; auto;
    try (intros c0 Hc0;
         match type of Hc0 with In _ (match stack ?s with _ => _ end) =>
           destruct (stack s) as [|d ds]; [contradiction|] end;
         destruct Hc0 as [<-|Hc0]; [cbn; apply H; left; reflexivity | apply H; right; exact Hc0]; fail).
  - intros c [<-|Hc]; auto. cbn. intros x Hx. exfalso. apply Hx. reflexivity.
  - intros c0 Hc0. apply H. rewrite H0. right. exact Hc0.
  - intros c0 [<-|Hc0].
    + cbn. apply uniq_app; auto. apply H. rewrite H0. left. reflexivity.
    + apply H. rewrite H0. right. exact Hc0.
  - intros c Hc. apply in_retval in Hc as (c0 & Hc0 & _ & _ & ->). auto.
Qed.

Lemma names_ok_steps E s s' : steps E s s' -> names_ok s -> names_ok s'.
Proof. apply steps_invariant. apply names_ok_step. Qed.

(** A bound name keeps its binding as long as its context lives. *)
Definition binds (i : Z) (x : string) (t : tree) (s : state) : Prop :=
  i < fresh s /\ forall c, In c (stack s) -> c_id c = i -> resolve_id x (c_idmap c) = t.

Lemma resolve_id_app_bound x m y t : resolve_id x m <> NULL -> resolve_id x (m ++ [(y, t)]) = resolve_id x m.
Proof.
  intros H. rewrite resolve_id_app. destruct (existsb _ m) eqn:Ee; auto.
  apply resolve_id_absent in Ee. congruence.
Qed.

Lemma binds_step E i x t s s' : t <> NULL -> binds i x t s -> step E s s' -> binds i x t s'.
Proof.
  intros Ht [Hf H] Hs.
  assert (Hsame : fresh s <= fresh s' ->
     (forall c, In c (stack s') -> c_id c = i ->
        exists c0, In c0 (stack s) /\ c_id c0 = i /\ c_idmap c = c_idmap c0) -> binds i x t s').
  { intros H1 H2. split; [lia|]. intros c Hc Hid.
    destruct (H2 c Hc Hid) as (c0 & Hc0 & Hid0 & ->). auto. }
  destruct Hs.
  all: try (apply Hsame; [cbn; lia | intros c0 Hc0 Hid0; exists c0; auto]; fail).
  all: try (apply Hsame; [cbn; lia | ];
            intros c0 Hc0 Hid0; apply in_with_top in Hc0 as (c1 & Hc1 & [->| ->]); exists c1; auto; fail).
  - split; [cbn; lia|]. cbn. intros c [<-|Hc] Hid; [cbn in Hid; lia|]. auto.
  - apply Hsame; [cbn; lia | ]. cbn. intros c0 Hc0 Hid0. exists c0. rewrite H0.
    split; [right; exact Hc0 | auto].
  - split; [cbn; lia|]. cbn. intros c0 [<-|Hc0] Hid.
    + cbn in *. assert (Hr : resolve_id x (c_idmap c) = t) by (apply H; auto; rewrite H0; left; reflexivity).
      rewrite resolve_id_app_bound; congruence.
    + apply H; auto. rewrite H0. right. exact Hc0.
  - apply Hsame; [cbn; lia | ]. cbn. intros c0 Hc0 Hid0.
    apply in_retval in Hc0 as (c1 & Hc1 & H1 & _ & H2). exists c1. rewrite <- H1. auto.
Qed.

Lemma binds_steps E i x t s s' : t <> NULL -> steps E s s' -> binds i x t s -> binds i x t s'.
Proof. intros Ht. apply steps_invariant. intros. eapply binds_step; eauto. Qed.
