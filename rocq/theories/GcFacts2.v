(** Lemmas about the collector model: runs, termination, the limits of the array. *)
From Coq Require Import ZArith List Bool Lia Relations Permutation Sorted.
From Verif Require Import Gc SpecGc GcFacts.
Import ListNotations.
Local Open Scope Z_scope.

Lemma runs_inv ops g : runs_to roomy ops g -> inv ops g.
Proof.
  induction 1 as [|ops g g' fuel words statics garbage a Hr IH Hf Hg Ha|ops g h Hr IH Ho Hm|ops g Hr IH|ops g Hr IH].
  - split; [|split; [|split; [|split]]]; cbn; auto; try congruence. split; cbn; [|auto]. intros a (o & H & _). discriminate.
  - eapply alloc_ok; eauto.
  - destruct IH as ((Hu & Harr) & H1 & H2 & H3 & H4). split; [|split; [|split; [|split]]]; cbn; auto.
    + split; cbn; [exact Hm|]. destruct (allocs g) as [l|].
      * destruct Harr as (A & B & C & D). split; [exact A|]. split; [exact B|]. split; [|exact D]. intros a. rewrite Ho. apply C.
      * destruct Harr as [A B]. split; [exact A|]. intros a. destruct (h a) eqn:E; [|reflexivity]. exfalso.
        apply (proj1 (Ho a)); [unfold is_obj; rewrite E; discriminate|apply B].
    + intros Hn. destruct (H1 Hn) as [a Ha]. exists a. apply Ho, Ha.
  - destruct IH as (Hw & H1 & H2 & H3 & H4). split; [exact Hw|]. split; [exact H1|]. split; [exact H2|]. split; [cbn; congruence|exact H4].
  - destruct IH as (Hw & H1 & H2 & H3 & H4). split; [exact Hw|]. split; [exact H1|]. split; [exact H2|]. split; [cbn; congruence|exact H4].
Qed.

(** ** Termination *)
Lemma gfold_mono {A B} (f f' : A -> B -> gres A) : (forall a b c, f a b = GOk c -> f' a b = GOk c) ->
  forall l a c, gfold f l a = GOk c -> gfold f' l a = GOk c.
Proof.
  intros H. induction l as [|b l IH]; intros a c Hc; cbn in *; [exact Hc|]. destruct (f a b) as [d| |] eqn:E; try discriminate.
  rewrite (H _ _ _ E). cbn in *. auto.
Qed.
Lemma mark_tree_mono f f' : (forall h a h', f h a = GOk h' -> f' h a = GOk h') ->
  forall h a h', mark_tree f h a = GOk h' -> mark_tree f' h a = GOk h'.
Proof.
  intros H h a h' E. unfold mark_tree in *. destruct (a =? 0); [exact E|]. destruct (h a) as [o|]; [|discriminate]. destruct (file o =? 0).
  - cbn in *. auto.
  - destruct (f h (file o)) as [h1| |] eqn:E1; try discriminate. rewrite (H _ _ _ E1). cbn in *. auto.
Qed.
Lemma mark_object_S fuel h a : mark_object (S fuel) h a =
  if a =? 0 then GOk h else
      match h a with
      | None => GUB
      | Some o =>
          gbind (mark_tree (mark_object fuel) (upd h a (Some (set_mark true o))) (file o)) (fun h =>
          gfold (mark_tree (mark_object fuel)) (kids o) h)
      end.
Proof. reflexivity. Qed.
Lemma mark_mono n : forall h a h', mark_object n h a = GOk h' -> mark_object (S n) h a = GOk h'.
Proof.
  induction n as [|n IH]; intros h a h' H; [discriminate|]. rewrite mark_object_S in H |- *. destruct (a =? 0); [exact H|].
  destruct (h a) as [o|]; [|discriminate].
  destruct (mark_tree (mark_object n) (upd h a (Some (set_mark true o))) (file o)) as [h1| |] eqn:E; try discriminate.
  rewrite (mark_tree_mono _ _ IH _ _ _ E). cbn [gbind] in H |- *. apply (gfold_mono _ _ (mark_tree_mono _ _ IH)), H.
Qed.
Lemma mark_mono_le n m h a h' : (n <= m)%nat -> mark_object n h a = GOk h' -> mark_object m h a = GOk h'.
Proof. induction 1; auto using mark_mono. Qed.

(** Marking from [a] terminates with this fuel, whatever the marks are. *)
Definition terminates (h : heap) (n : nat) (a : Z) : Prop := forall h', same_objects h h' -> exists h'', mark_object n h' a = GOk h''.
Lemma terminates_le h n m a : (n <= m)%nat -> terminates h n a -> terminates h m a.
Proof. intros Hle H h' Hs. destruct (H h' Hs) as [h'' E]. exists h''. eapply mark_mono_le; eauto. Qed.
Lemma terminates_tree h n a : terminates h n a -> (forall o, h a = Some o -> file o <> 0 -> terminates h n (file o)) -> is_obj h a \/ a = 0 ->
  forall h', same_objects h h' -> exists h'', mark_tree (mark_object n) h' a = GOk h''.
Proof.
  intros Ht Hf Hobj h' Hs. unfold mark_tree. destruct (Z.eqb_spec a 0) as [->|Ha]; [eauto|].
  destruct Hobj as [Hobj|]; [|contradiction]. unfold is_obj in Hobj. pose proof (Hs a) as Hsa.
  destruct (h a) as [o|] eqn:Ho; [|congruence]. destruct (h' a) as [o'|] eqn:Ho'; [|contradiction]. destruct Hsa as (E & _). rewrite E.
  destruct (Z.eqb_spec (file o) 0) as [Hz|Hz]; cbn; [apply Ht, Hs|].
  destruct (Hf o eq_refl Hz h' Hs) as [h1 H1]. rewrite H1. cbn. apply Ht. eapply same_trans; [exact Hs|].
  apply (proj1 (marks_object n _ _ _ H1)).
Qed.

Lemma terminates_S h n a o : h a = Some o ->
  (forall b, b <> 0 -> In b (file o :: kids o) -> is_obj h b /\ terminates h n b /\ forall ob, h b = Some ob -> file ob <> 0 -> terminates h n (file ob)) ->
  terminates h (S n) a.
Proof.
  intros Ho Hsucc h' Hs. rewrite mark_object_S. destruct (Z.eqb_spec a 0) as [->|Ha]; [eauto|]. pose proof (Hs a) as Hsa. rewrite Ho in Hsa.
  destruct (h' a) as [o'|] eqn:Ho'; [|contradiction]. destruct Hsa as (E1 & E2 & _). rewrite E1, E2.
  assert (Ht : forall b, In b (file o :: kids o) -> forall h', same_objects h h' -> exists h'', mark_tree (mark_object n) h' b = GOk h'').
  { intros b Hb h1 H1. destruct (Z.eq_dec b 0) as [->|Hb0]; [exists h1; reflexivity|].
    destruct (Hsucc b Hb0 Hb) as (X & Y & Z). apply (terminates_tree h n b Y Z (or_introl X) h1 H1). }
  assert (Hs1 : same_objects h (upd h' a (Some (set_mark true o')))) by (eapply same_trans; [exact Hs|apply same_mark, Ho']).
  destruct (Ht (file o) (or_introl eq_refl) _ Hs1) as [h1 H1]. rewrite H1. cbn [gbind].
  assert (Hs2 : same_objects h h1) by (eapply same_trans; [exact Hs1|apply (marks_tree _ (marks_object n) _ _ _ H1)]).
  clear - Ht Hs2. assert (Hk : forall b, In b (kids o) -> forall h', same_objects h h' -> exists h'', mark_tree (mark_object n) h' b = GOk h'')
    by (intros b Hb; apply Ht; right; exact Hb). clear Ht. revert h1 Hs2. induction (kids o) as [|b l IH]; intros h1 Hs; cbn [gfold]; [eauto|].
  destruct (Hk b (or_introl eq_refl) h1 Hs) as [h2 H2]. rewrite H2. cbn [gbind]. apply IH; [intros c Hc; apply Hk; right; exact Hc|].
  eapply same_trans; [exact Hs|apply (marks_tree _ (marks_object n) _ _ _ H2)].
Qed.

(** Below an object without cycles and dangling links the links are well-founded. *)
Lemma acyclic_acc h l r : (forall a, is_obj h a -> In a l) -> (forall x y, reaches h r x -> link h x y -> is_obj h y) ->
  (forall x, reaches h r x -> ~ cyclic h x) -> is_obj h r ->
  Acc (fun b a => link h a b) r.
Proof.
  intros Hl Hc Ha Hr.
  assert (G : forall n v x, NoDup v -> incl v l -> (length v + n = length l)%nat -> reaches h r x -> is_obj h x ->
     (forall y, In y v -> clos_trans_1n Z (link h) y x) -> Acc (fun b a => link h a b) x).
  { induction n as [|n IH]; intros v x Hnd Hin Hlen Hrx Hx Hv.
    - exfalso. apply (Ha x Hrx). apply Hv. assert (Hincl : incl l v) by (apply NoDup_length_incl; [exact Hnd|lia|exact Hin]). apply Hincl, Hl, Hx.
    - assert (Hnx : ~ In x v) by (intros H; apply (Ha x Hrx), Hv, H). constructor. intros y Hy. apply (IH (x :: v) y).
      + constructor; assumption.
      + intros z [<-|Hz]; [apply Hl, Hx|apply Hin, Hz].
      + cbn. lia.
      + apply (reaches_trans h r x y Hrx). econstructor; [exact Hy|constructor].
      + apply (Hc x y Hrx Hy).
      + intros z [<-|Hz]; [apply t1n_step, Hy|]. apply clos_trans_t1n_iff. eapply t_trans; [apply clos_trans_t1n_iff, Hv, Hz|apply t_step, Hy]. }
  apply (G (length l) [] r); auto; [constructor|intros y []|constructor|intros y []].
Qed.

Lemma acc_terminates h r : (forall x y, reaches h r x -> link h x y -> is_obj h y) -> is_obj h r -> Acc (fun b a => link h a b) r ->
  exists n, forall x, reaches h r x -> terminates h n x.
Proof.
  intros Hc Hr Hacc. induction Hacc as [r _ IH]. destruct (h r) as [o|] eqn:Ho; [|contradiction (Hr Ho)].
  assert (Hlink : forall b, b <> 0 -> In b (file o :: kids o) -> link h r b) by (intros b Hb [<-|Hin]; exists o; auto).
  assert (Hsub : forall b, link h r b -> exists n, forall x, reaches h b x -> terminates h n x).
  { intros b Hb. apply IH; [exact Hb| |apply (Hc r b); [constructor|exact Hb]]. intros x y Hx. apply Hc. econstructor; [exact Hb|exact Hx]. }
  assert (Hmax : forall m, (forall b, b <> 0 -> In b m -> link h r b) -> exists n, forall b, b <> 0 -> In b m -> forall x, reaches h b x -> terminates h n x).
  { induction m as [|b m IHm]; intros Hm; [exists O; intros b _ []|]. destruct IHm as [n1 H1]; [intros c Hc0 Hin; apply Hm; [exact Hc0|right; exact Hin]|].
    destruct (Z.eq_dec b 0) as [->|Hb].
    - exists n1. intros c Hc0 [<-|Hin]; [contradiction|]. exact (H1 c Hc0 Hin).
    - destruct (Hsub b (Hm b Hb (or_introl eq_refl))) as [n2 H2]. exists (Nat.max n1 n2). intros c Hc0 [<-|Hin] x Hx.
      + apply (terminates_le h n2); [lia|auto].
      + apply (terminates_le h n1); [lia|apply (H1 c); auto]. }
  destruct (Hmax (file o :: kids o) Hlink) as [n Hn]. exists (S n). intros x Hx. destruct Hx as [|y x Hl Hyx].
  - apply (terminates_S h n r o Ho). intros b Hb Hin. split; [apply (Hc r b); [constructor|apply Hlink; auto]|]. split; [apply (Hn b Hb Hin); constructor|].
    intros ob Hob Hf. apply (Hn b Hb Hin). eapply Relation_Operators.rt1n_trans; [exists ob; split; [exact Hob|]; split; [exact Hf|left; reflexivity]|constructor].
  - destruct Hl as (o' & Ho' & Hy & Hin). rewrite Ho in Ho'. injection Ho' as <-. apply (terminates_le h n); [lia|].
    apply (Hn y Hy); [|exact Hyx]. destruct Hin as [<-|Hin]; [left; reflexivity|right; exact Hin].
Qed.

(** ** Divergence *)
(** From [x] a cycle can be reached. *)
Definition to_cycle (h : heap) (x : Z) : Prop := exists c, reaches h x c /\ cyclic h c.
Lemma trans_first h x y : clos_trans_1n Z (link h) x y -> exists z, link h x z /\ reaches h z y.
Proof.
  induction 1 as [x y H|x y z H Ht (w & Hw & Hr)]; [exists y; split; [exact H|constructor]|].
  exists y. split; [exact H|]. econstructor; [exact Hw|exact Hr].
Qed.
Lemma to_cycle_next h x : to_cycle h x -> exists y, link h x y /\ to_cycle h y.
Proof.
  intros (c & Hr & Hc). destruct Hr as [|y c Hl Hr]; [|exists y; split; [exact Hl|exists c; auto]].
  destruct (trans_first h x x Hc) as (y & Hl & Hr). exists y. split; [exact Hl|]. exists x. auto.
Qed.
Lemma trans_same h h' x y : same_objects h h' -> clos_trans_1n Z (link h) x y -> clos_trans_1n Z (link h') x y.
Proof.
  intros Hs H. induction H as [x y H|x y z H Ht IH].
  - apply t1n_step. apply (same_link h h' x y Hs H).
  - apply (Relation_Operators.t1n_trans _ _ x y z (same_link h h' x y Hs H) IH).
Qed.
Lemma to_cycle_same h h' x : same_objects h h' -> to_cycle h x -> to_cycle h' x.
Proof. intros Hs (c & Hr & Hc). exists c. split; [eapply same_reaches; eauto|apply (trans_same h h' c c Hs Hc)]. Qed.

Lemma gfold_in {A B} (f : A -> B -> gres A) l a c x : gfold f l a = GOk c -> In x l -> exists a1 a2, f a1 x = GOk a2 /\
  exists m1 m2, gfold f m1 a = GOk a1 /\ l = m1 ++ x :: m2.
Proof.
  revert a. induction l as [|b l IH]; intros a H Hx; [contradiction|]. cbn in H. destruct Hx as [<-|Hin].
  - destruct (f a b) as [a2| |] eqn:E; try discriminate. exists a, a2. split; [exact E|]. exists [], l. auto.
  - destruct (f a b) as [a2| |] eqn:E; try discriminate. destruct (IH a2 H Hin) as (a3 & a4 & H1 & m1 & m2 & H2 & ->). exists a3, a4. split; [exact H1|].
    exists (b :: m1), m2. cbn. rewrite E. auto.
Qed.

Lemma mark_tree_object f h a h' : mark_tree f h a = GOk h' -> a <> 0 -> marks f -> exists h1, same_objects h h1 /\ f h1 a = GOk h'.
Proof.
  intros H Ha Hf. unfold mark_tree in H. destruct (Z.eqb_spec a 0); [contradiction|]. destruct (h a) as [o|]; [|discriminate].
  destruct (file o =? 0); cbn in H; [exists h; split; [apply same_refl|exact H]|].
  destruct (f h (file o)) as [h1| |] eqn:E; try discriminate. exists h1. split; [apply (Hf _ _ _ E)|exact H].
Qed.

Lemma cycle_diverges n : forall h a h', a <> 0 -> to_cycle h a -> mark_object n h a <> GOk h'.
Proof.
  induction n as [|n IH]; intros h a h' Ha Hc H; [discriminate|]. rewrite mark_object_S in H.
  destruct (to_cycle_next h a Hc) as (y & (o & Ho & Hy & Hin) & Hcy).
  destruct (Z.eqb_spec a 0) as [|_]; [contradiction|]. rewrite Ho in H. set (h0 := upd h a (Some (set_mark true o))) in H.
  assert (Hs0 : same_objects h h0) by (apply same_mark, Ho).
  destruct (mark_tree (mark_object n) h0 (file o)) as [h1| |] eqn:E; try discriminate. cbn [gbind] in H.
  assert (Hs1 : same_objects h h1) by (eapply same_trans; [exact Hs0|apply (marks_tree _ (marks_object n) _ _ _ E)]).
  destruct Hin as [<-|Hin].
  - destruct (mark_tree_object _ _ _ _ E Hy (marks_object n)) as (h2 & Hs2 & H2).
    apply (IH h2 (file o) h1 Hy); [|exact H2]. apply (to_cycle_same h h2); [|exact Hcy]. apply (same_trans h h0 h2); assumption.
  - destruct (gfold_in _ _ _ _ _ H Hin) as (h2 & h3 & H2 & m1 & m2 & H3 & _).
    assert (Hs2 : same_objects h h2) by (eapply same_trans; [exact Hs1|apply (gfold_marks _ (marks_tree _ (marks_object n)) _ _ _ H3)]).
    destruct (mark_tree_object _ _ _ _ H2 Hy (marks_object n)) as (h4 & Hs4 & H4).
    apply (IH h4 y h3 Hy); [|exact H4]. apply (to_cycle_same h h4); [|exact Hcy]. apply (same_trans h h2 h4); assumption.
Qed.

(** Marking only touches objects when all links lead to objects. *)
Definition sound (h : heap) (a : Z) : Prop := is_obj h a /\ forall x y, reaches h a x -> link h x y -> is_obj h y.
Lemma sound_same h h' a : same_objects h h' -> sound h a -> sound h' a.
Proof.
  intros Hs [H1 H2]. split; [apply (same_is_obj h h' a Hs), H1|]. intros x y Hx Hy. apply (same_is_obj h h' y Hs).
  apply (H2 x y); [eapply same_reaches; [apply same_sym, Hs|exact Hx]|eapply same_link; [apply same_sym, Hs|exact Hy]].
Qed.
Lemma sound_next h a b : sound h a -> link h a b -> sound h b.
Proof.
  intros [H1 H2] Hl. split; [apply (H2 a b); [constructor|exact Hl]|]. intros x y Hx. apply H2. econstructor; [exact Hl|exact Hx].
Qed.
Lemma gfold_safe (f : heap -> Z -> gres heap) (P : heap -> Prop) l :
  (forall h x, P h -> In x l -> f h x <> GUB) -> (forall h x h', P h -> f h x = GOk h' -> P h') ->
  forall h, P h -> gfold f l h <> GUB.
Proof.
  intros H1 H2. induction l as [|x l IH]; intros h Hp; cbn; [discriminate|]. destruct (f h x) as [h'| |] eqn:E; cbn; [|exfalso|discriminate].
  - apply IH; [intros h0 y H0 Hy; apply H1; [exact H0|right; exact Hy]|]. eapply H2; eauto.
  - apply (H1 h x Hp (or_introl eq_refl) E).
Qed.
Lemma tree_safe f h a : marks f -> (forall h' b, same_objects h h' -> sound h' b -> f h' b <> GUB) -> sound h a -> mark_tree f h a <> GUB.
Proof.
  intros Hm Hf Hs. unfold mark_tree. destruct (a =? 0); [discriminate|]. assert (Ho := proj1 Hs). unfold is_obj in Ho. destruct (h a) as [o|] eqn:E; [|congruence].
  destruct (Z.eqb_spec (file o) 0) as [Hz|Hz]; cbn; [apply Hf; [apply same_refl|exact Hs]|].
  assert (Hsf : sound h (file o)) by (apply (sound_next h a _ Hs); exists o; auto).
  destruct (f h (file o)) as [h1| |] eqn:E1; cbn; [|exfalso; apply (Hf h (file o) (same_refl h) Hsf E1)|discriminate].
  destruct (Hm _ _ _ E1) as [Hs1 _]. apply Hf; [exact Hs1|]. eapply sound_same; eauto.
Qed.
Lemma mark_safe n : forall h a, sound h a -> mark_object n h a <> GUB.
Proof.
  induction n as [|n IH]; intros h a Hs; [discriminate|]. rewrite mark_object_S. destruct (a =? 0); [discriminate|].
  assert (Ho := proj1 Hs). unfold is_obj in Ho. destruct (h a) as [o|] eqn:E; [|congruence].
  set (h0 := upd h a (Some (set_mark true o))). assert (Hs0 : same_objects h h0) by (apply same_mark, E).
  assert (Hsucc : forall h' b, same_objects h h' -> In b (file o :: kids o) -> mark_tree (mark_object n) h' b <> GUB).
  { intros h' b Hsh Hb. destruct (Z.eq_dec b 0) as [->|Hb0]; [discriminate|]. apply tree_safe; [apply marks_object|intros h1 c _ Hc; apply IH, Hc|].
    apply (sound_same h h' b Hsh), (sound_next h a b Hs). exists o. destruct Hb; auto. }
  destruct (mark_tree (mark_object n) h0 (file o)) as [h1| |] eqn:E1; cbn [gbind]; [|exfalso|discriminate].
  - assert (Hs1 : same_objects h h1) by (eapply same_trans; [exact Hs0|apply (marks_tree _ (marks_object n) _ _ _ E1)]).
    apply (gfold_safe _ (same_objects h)); [| |exact Hs1].
    + intros h2 x H2 Hx. apply Hsucc; [exact H2|right; exact Hx].
    + intros h2 x h3 H2 H3. eapply same_trans; [exact H2|apply (marks_tree _ (marks_object n) _ _ _ H3)].
  - apply (Hsucc h0 (file o) Hs0 (or_introl eq_refl) E1).
Qed.

(** ** Whole collections *)
(** The links of live objects lead to objects. *)
Definition roots_sound (h : heap) (words statics : list Z) : Prop := forall x y, live h words statics x -> link h x y -> is_obj h y.

Lemma root_sound h words statics r : roots_sound h words statics -> In r (words ++ statics) -> is_obj h r -> sound h r.
Proof. intros H Hin Ho. split; [exact Ho|]. intros x y Hx Hl. apply (H x y); [exists r; auto|exact Hl]. Qed.

Lemma roots_terminate h words statics m : (forall a, is_obj h a -> In a m) -> roots_sound h words statics ->
  (forall x, live h words statics x -> ~ cyclic h x) ->
  exists n, forall x, live h words statics x -> terminates h n x.
Proof.
  intros Hfin Hs Hc. unfold live.
  assert (G : forall l, incl l (words ++ statics) -> exists n, forall r, In r l -> is_obj h r -> forall x, reaches h r x -> terminates h n x).
  { induction l as [|r l IH]; intros Hl; [exists O; intros r []|]. destruct IH as [n1 H1]; [intros x Hx; apply Hl; right; exact Hx|].
    assert (Hr : In r (words ++ statics)) by (apply Hl; left; reflexivity).
    assert (Hdec : is_obj h r \/ ~ is_obj h r) by (unfold is_obj; destruct (h r); [left; discriminate|right; auto]). destruct Hdec as [Ho|Ho].
    - destruct (acc_terminates h r) as [n2 H2].
      + intros x y Hx. apply Hs. exists r. auto.
      + exact Ho.
      + apply (acyclic_acc h m r Hfin); [|intros x Hx; apply Hc; exists r; auto|exact Ho]. intros x y Hx. apply Hs. exists r. auto.
      + exists (Nat.max n1 n2). intros q [<-|Hq] Hoq x Hx; [apply (terminates_le h n2); [lia|auto]|apply (terminates_le h n1); [lia|eapply H1; eauto]].
    - exists n1. intros q [<-|Hq] Hoq; [contradiction|]. exact (H1 q Hq Hoq). }
  destruct (G (words ++ statics) (incl_refl _)) as [n Hn]. exists n. intros x (r & Hr & Ho & Hx). eapply Hn; eauto.
Qed.

Lemma gfold_total (f : heap -> Z -> gres heap) (P : heap -> Prop) l :
  (forall h x, P h -> In x l -> exists h', f h x = GOk h' /\ P h') -> forall h, P h -> exists h', gfold f l h = GOk h' /\ P h'.
Proof.
  intros H. induction l as [|x l IH]; intros h Hp; cbn; [eauto|]. destruct (H h x Hp (or_introl eq_refl)) as (h1 & E & P1). rewrite E. cbn.
  apply IH; [intros h2 y H2 Hy; apply H; [exact H2|right; exact Hy]|exact P1].
Qed.

(** The collection after the fix-up of the array. *)
Lemma collect_start fuel words statics g : wf g -> ~ full g -> (exists a, is_obj (objects g) a) ->
  exists s z, StronglySorted (fun x y => y < x) s /\ NoDup s /\ (forall a, is_obj (objects g) a <-> In a s) /\ Forall (fun a => 0 < a) s /\
    collect fuel words statics g =
      gbind (mark_stack fuel (s ++ z) (length s) words (objects g)) (fun h =>
      gbind (mark_static fuel (s ++ z) (length s) statics h) (fun h =>
      gbind (sweep s h (frees g)) (fun '(h, fs, entries) =>
      GOk (mkgc (gc_inhibited g) (length s) (Some (entries ++ z)) (collect_counter g) h fs)))).
Proof.
  intros (Hm & Harr) Hnf (a0 & Ha0). unfold collect. destruct (allocs g) as [l|] eqn:Hl.
  2:{ exfalso. destruct Harr as [_ Hn]. apply Ha0, Hn. }
  assert (Hlt : (alloc_ptr g < length l)%nat).
  { destruct (le_lt_dec (length l) (alloc_ptr g)); [|lia]. exfalso. apply Hnf. exists l. auto. }
  destruct (fixup_ok (objects g) l (alloc_ptr g) Harr Hlt) as (s & z & Hfix & Hs & Hnd & Hobj & Hpos & Hz & Hlen & Hsp).
  { pose proof (proj1 (proj1 (proj2 (proj2 Harr)) a0) Ha0) as Hin. intros He. rewrite He in Hin. contradiction. }
  exists s, z. split; [exact Hs|]. split; [exact Hnd|]. split; [exact Hobj|]. split; [exact Hpos|]. rewrite Hfix. cbn [gbind].
  rewrite firstn_app, Nat.sub_diag, firstn_all, skipn_app, skipn_all, Nat.sub_diag. cbn [firstn skipn app]. rewrite app_nil_r. reflexivity.
Qed.

Lemma collect_terminates words statics g : wf g -> ~ full g -> (exists a, is_obj (objects g) a) ->
  roots_sound (objects g) words statics -> (forall x, live (objects g) words statics x -> ~ cyclic (objects g) x) ->
  exists fuel g', collect fuel words statics g = GOk g'.
Proof.
  intros Hwf Hnf Hex Hsound Hac.
  destruct (collect_start 0 words statics g Hwf Hnf Hex) as (s0 & _ & _ & _ & Hobj0 & _).
  destruct (roots_terminate (objects g) words statics s0 (fun a => proj1 (Hobj0 a)) Hsound Hac) as [n Hn]. exists n.
  destruct (collect_start n words statics g Hwf Hnf Hex) as (s & z & Hs & Hnd & Hobj & Hpos & ->).
  destruct (gfold_total (mark_potential_root n (s ++ z) (length s)) (same_objects (objects g)) words) with (h := objects g) as (h1 & E1 & P1).
  { intros h x Hh Hx. unfold mark_potential_root. destruct (is_object (s ++ z) (length s) x) eqn:Hi; [|eauto].
    apply is_object_iff in Hi; [|exact Hs]. apply Hobj in Hi. destruct (Hn x) with (h' := h) as [h' E]; [|exact Hh|].
    - exists x. split; [apply in_or_app; auto|]. split; [exact Hi|constructor].
    - exists h'. split; [exact E|]. eapply same_trans; [exact Hh|apply (marks_object n _ _ _ E)]. }
  { apply same_refl. }
  unfold mark_stack. rewrite E1. cbn [gbind].
  destruct (gfold_total (fun h a => if is_object (s ++ z) (length s) a then mark_tree (mark_object n) h a else GOk h) (same_objects (objects g)) statics)
    with (h := h1) as (h2 & E2 & P2).
  { intros h x Hh Hx. destruct (is_object (s ++ z) (length s) x) eqn:Hi; [|eauto].
    apply is_object_iff in Hi; [|exact Hs]. apply Hobj in Hi.
    assert (Hlx : live (objects g) words statics x) by (exists x; split; [apply in_or_app; auto|]; split; [exact Hi|constructor]).
    destruct (terminates_tree (objects g) n x (Hn x Hlx)) with (h' := h) as [h' E]; [|left; exact Hi|exact Hh|].
    - intros o Ho Hf. apply Hn. exists x. split; [apply in_or_app; auto|]. split; [exact Hi|].
      eapply Relation_Operators.rt1n_trans; [exists o; split; [exact Ho|]; split; [exact Hf|left; reflexivity]|constructor].
    - exists h'. split; [exact E|]. eapply same_trans; [exact Hh|apply (marks_tree _ (marks_object n) _ _ _ E)]. }
  { exact P1. }
  unfold mark_static. rewrite E2. cbn [gbind].
  destruct (sweep_ok s h2 (frees g) [] Hnd) as (h' & Hsw & _).
  { intros a Ha. apply (same_is_obj _ _ a P2). apply Hobj, Ha. }
  unfold sweep. rewrite Hsw. cbn [gbind]. eauto.
Qed.

Lemma gfold_bad {A B} (f : A -> B -> gres A) (P : A -> Prop) l x : In x l -> (forall a, P a -> f a x = GFuel) ->
  (forall a y, P a -> In y l -> f a y <> GUB) -> (forall a y b, P a -> f a y = GOk b -> P b) -> forall a, P a -> gfold f l a = GFuel.
Proof.
  intros Hx Hf. induction l as [|y l IH]; intros Hu Hp a Ha; [contradiction|]. cbn. destruct Hx as [->|Hx].
  - rewrite Hf by exact Ha. reflexivity.
  - destruct (f a y) as [b| |] eqn:E; cbn; [|exfalso; apply (Hu a y Ha (or_introl eq_refl) E)|reflexivity].
    apply IH; [exact Hx|intros c w Hc Hw; apply Hu; [exact Hc|right; exact Hw]|exact Hp|]. eapply Hp; eauto.
Qed.

Lemma collect_diverges fuel words statics g : wf g -> ~ full g -> (exists a, is_obj (objects g) a) ->
  roots_sound (objects g) words statics -> (exists x, live (objects g) words statics x /\ cyclic (objects g) x) ->
  collect fuel words statics g = GFuel.
Proof.
  intros Hwf Hnf Hex Hsound (c & (r & Hr & Ho & Hrc) & Hc).
  destruct (collect_start fuel words statics g Hwf Hnf Hex) as (s & z & Hs & Hnd & Hobj & Hpos & ->).
  assert (Hr0 : r <> 0). { intros ->. apply Hobj in Ho. rewrite Forall_forall in Hpos. specialize (Hpos 0 Ho). lia. }
  assert (Htc : forall h, same_objects (objects g) h -> to_cycle h r) by (intros h Hh; apply (to_cycle_same _ _ _ Hh); exists c; auto).
  assert (Hsafe : forall h x, same_objects (objects g) h -> In x (words ++ statics) -> is_object (s ++ z) (length s) x = true -> sound h x).
  { intros h x Hh Hx Hi. apply is_object_iff in Hi; [|exact Hs]. apply Hobj in Hi. apply (sound_same _ _ _ Hh). eapply root_sound; eauto. }
  assert (Hri : is_object (s ++ z) (length s) r = true) by (apply is_object_iff; [exact Hs|]; apply Hobj, Ho).
  assert (Hstack_safe : forall h y, same_objects (objects g) h -> In y words -> mark_potential_root fuel (s ++ z) (length s) h y <> GUB).
  { intros h y Hh Hy. unfold mark_potential_root. destruct (is_object (s ++ z) (length s) y) eqn:Hi; [|discriminate].
    apply mark_safe, Hsafe; auto. apply in_or_app. auto. }
  assert (Hstack_same : forall h y h', same_objects (objects g) h -> mark_potential_root fuel (s ++ z) (length s) h y = GOk h' -> same_objects (objects g) h').
  { intros h y h' Hh E. unfold mark_potential_root in E. destruct (is_object (s ++ z) (length s) y); [|injection E as <-; exact Hh].
    eapply same_trans; [exact Hh|apply (marks_object fuel _ _ _ E)]. }
  apply in_app_or in Hr as Hr'. destruct Hr' as [Hw|Hst].
  - unfold mark_stack. rewrite (gfold_bad (mark_potential_root fuel (s ++ z) (length s)) (same_objects (objects g)) words r Hw); [reflexivity| | | |apply same_refl].
    + intros h Hh. unfold mark_potential_root. rewrite Hri. pose proof (mark_safe fuel h r (Hsafe h r Hh Hr Hri)) as Hns.
      destruct (mark_object fuel h r) as [h'| |] eqn:E; [|contradiction Hns; reflexivity|reflexivity]. exfalso. exact (cycle_diverges fuel h r h' Hr0 (Htc h Hh) E).
    + exact Hstack_safe.
    + exact Hstack_same.
  - assert (Hst1 := gfold_safe (mark_potential_root fuel (s ++ z) (length s)) (same_objects (objects g)) words Hstack_safe Hstack_same (objects g) (same_refl _)).
    unfold mark_stack. destruct (gfold (mark_potential_root fuel (s ++ z) (length s)) words (objects g)) as [h1| |] eqn:E1; [|contradiction Hst1; reflexivity|reflexivity].
    cbn [gbind]. assert (Hh1 : same_objects (objects g) h1) by (apply marks_stack in E1 as [X _]; assumption).
    unfold mark_static.
    rewrite (gfold_bad (fun h a => if is_object (s ++ z) (length s) a then mark_tree (mark_object fuel) h a else GOk h) (same_objects (objects g)) statics r Hst);
      [reflexivity| | | |exact Hh1].
    + intros h Hh. rewrite Hri.
      assert (Hns : mark_tree (mark_object fuel) h r <> GUB).
      { apply tree_safe; [apply marks_object|intros h' b _ Hb; apply mark_safe, Hb|apply Hsafe; auto]. }
      destruct (mark_tree (mark_object fuel) h r) as [h'| |] eqn:E; [|contradiction Hns; reflexivity|reflexivity]. exfalso.
      destruct (mark_tree_object _ _ _ _ E Hr0 (marks_object fuel)) as (h2 & Hs2 & H2).
      apply (cycle_diverges fuel h2 r h' Hr0); [|exact H2]. apply Htc. eapply same_trans; eauto.
    + intros h y Hh Hy. destruct (is_object (s ++ z) (length s) y) eqn:Hi; [|discriminate].
      apply tree_safe; [apply marks_object|intros h' b _ Hb; apply mark_safe, Hb|apply Hsafe; auto]. apply in_or_app. auto.
    + intros h y h' Hh E. destruct (is_object (s ++ z) (length s) y); [|injection E as <-; exact Hh].
      eapply same_trans; [exact Hh|apply (marks_tree _ (marks_object fuel) _ _ _ E)].
Qed.

(** ** The limits of the array *)
Lemma full_collect fuel words statics g : full g -> collect fuel words statics g = GUB.
Proof.
  intros (l & Hl & Hlen). unfold collect. rewrite Hl. unfold fixup_alloc_array.
  replace (length (qsort (firstn (alloc_ptr g) l) ++ skipn (alloc_ptr g) l) <=? alloc_ptr g)%nat with true; [reflexivity|].
  symmetry. apply Nat.leb_le. rewrite app_length, skipn_length, <- (Permutation_length (qsort_perm _)), firstn_length. lia.
Qed.
Lemma full_alloc fuel words statics garbage a g : due g -> full g -> alloc_tree fuel words statics garbage a g = GUB.
Proof. intros Hd Hf. unfold alloc_tree. rewrite (maybe_due _ _ _ _ Hd), full_collect; [reflexivity|]. destruct Hf as (l & A & B). exists l. auto. Qed.

(** A new entry that is not zero and not an object is never survived. *)
Lemma sweep_bad x : forall l h fs done r, In x l -> h x = None -> gfold sweep_one l (h, fs, done) <> GOk r.
Proof.
  induction l as [|a l IH]; intros h fs done r Hin Hx H; [contradiction|]. cbn [gfold] in H. unfold sweep_one at 1 in H.
  destruct (h a) as [o|] eqn:Ho; [|discriminate]. assert (Hxa : x <> a) by (intros ->; congruence). destruct Hin as [->|Hin]; [contradiction|].
  destruct (reachable o); cbn [dealloc_object gbind] in H; eapply IH; try exact H; try exact Hin; rewrite upd_other by exact Hxa; exact Hx.
Qed.
Lemma garbage_collect fuel words statics g l x g' : allocs g = Some l -> (alloc_ptr g < length l)%nat -> nth (alloc_ptr g) l 0 = x -> x <> 0 ->
  objects g x = None -> collect fuel words statics g <> GOk g'.
Proof.
  intros Hl Hlen Hn Hx Ho H. unfold collect in H. rewrite Hl in H. unfold fixup_alloc_array in H.
  set (p := alloc_ptr g) in *. set (l' := qsort (firstn p l) ++ skipn p l) in *.
  assert (Hq : length (qsort (firstn p l)) = p) by (rewrite <- (Permutation_length (qsort_perm _)), firstn_length; lia).
  assert (Hlen' : length l' = length l) by (unfold l'; rewrite app_length, Hq, skipn_length; lia).
  replace (length l' <=? p)%nat with false in H by (symmetry; apply Nat.leb_gt; lia). cbn [gbind] in H.
  assert (Hnth : nth p l' 0 = x).
  { unfold l'. rewrite app_nth2, Hq, Nat.sub_diag by lia. rewrite <- Hn. rewrite <- (firstn_skipn p l) at 2.
    rewrite app_nth2 by (rewrite firstn_length; lia). rewrite firstn_length_le, Nat.sub_diag by lia. reflexivity. }
  assert (Hrun : run_back l' p = p).
  { destruct p as [|q]; [reflexivity|]. cbn [run_back]. rewrite Hnth. destruct (Z.eqb_spec x 0); [contradiction|reflexivity]. }
  rewrite Hrun in H.
  destruct (mark_stack fuel l' (S p) words (objects g)) as [h1| |] eqn:E1; try discriminate. cbn [gbind] in H.
  destruct (mark_static fuel l' (S p) statics h1) as [h2| |] eqn:E2; try discriminate. cbn [gbind] in H.
  assert (Hs : forall (f : heap -> Z -> gres heap) l h h', (forall h a h', f h a = GOk h' -> same_objects h h') -> gfold f l h = GOk h' -> same_objects h h').
  { intros f m. induction m as [|b m IH]; intros h h' Hf E; cbn in E; [injection E as <-; apply same_refl|].
    destruct (f h b) as [h3| |] eqn:E3; try discriminate. eapply same_trans; [eapply Hf; eauto|]. eapply IH; eauto. }
  assert (H1 : same_objects (objects g) h1).
  { eapply Hs; [|exact E1]. intros h a h' E. unfold mark_potential_root in E. destruct (is_object l' (S p) a); [apply (marks_object fuel _ _ _ E)|injection E as <-; apply same_refl]. }
  assert (H2 : same_objects h1 h2).
  { eapply Hs; [|exact E2]. intros h a h' E. cbv beta in E. destruct (is_object l' (S p) a); [apply (marks_tree _ (marks_object fuel) _ _ _ E)|injection E as <-; apply same_refl]. }
  pose proof (same_trans _ _ _ H1 H2 x) as Hsx. rewrite Ho in Hsx. destruct (h2 x) eqn:Hh2; [contradiction|].
  destruct (sweep (firstn (S p) l') h2 (frees g)) as [r| |] eqn:E3; try discriminate. unfold sweep in E3. apply (sweep_bad x) in E3; [exact E3| |exact Hh2].
  rewrite <- Hnth. rewrite <- (firstn_skipn (S p) l') at 1. rewrite app_nth1 by (rewrite firstn_length; lia). apply nth_In. rewrite firstn_length. lia.
Qed.

(** A state after allocations without collections: the objects have the addresses 1, 2, ... and the memory from realloc contains [v]. *)
Definition dense (v : Z) (g : gcstate) : Prop :=
  (forall x, is_obj (objects g) x <-> 1 <= x <= Z.of_nat (alloc_ptr g)) /\
  match allocs g with
  | None => alloc_ptr g = O
  | Some l => (forall i, (i < alloc_ptr g)%nat -> nth i l 0 = Z.of_nat (S i)) /\
      ((Z.of_nat (alloc_ptr g) <= 10000 /\ Z.of_nat (length l) = 10000) \/
      (10000 < Z.of_nat (alloc_ptr g) <= 20000 /\ Z.of_nat (length l) = 20000 /\
       forall i, 11250 <= Z.of_nat i < 20000 -> (alloc_ptr g <= i)%nat -> nth i l 0 = v))
  end.
Lemma set_nth_same n a l : (n < length l)%nat -> nth n (set_nth n a l) 0 = a.
Proof. revert n. induction l as [|b l IH]; intros [|n] H; cbn in *; try lia; auto. apply IH. lia. Qed.
Lemma set_nth_length n a l : length (set_nth n a l) = length l.
Proof. revert n. induction l as [|b l IH]; intros [|n]; cbn; auto. Qed.
Lemma set_nth_other n a l i : i <> n -> nth i (set_nth n a l) 0 = nth i l 0.
Proof. revert n i. induction l as [|b l IH]; intros [|n] [|i] H; cbn; auto; try contradiction. Qed.

Lemma dense_alloc v ops g : runs_to anyhow ops g -> dense v g -> ~ due g -> Z.of_nat (alloc_ptr g) < 20000 ->
  exists g', runs_to anyhow (Alloc :: ops) g' /\ dense v g' /\ alloc_ptr g' = S (alloc_ptr g) /\ gc_inhibited g' = gc_inhibited g /\ allocs g' <> None /\
    collect_counter g' = match gc_inhibited g with O => collect_counter g + 1 | S _ => collect_counter g end.
Proof.
  intros Hr (Hobj & Harr) Hnd Hlim. set (a := Z.of_nat (S (alloc_ptr g))). set (garbage := fun _ : nat => v).
  assert (Hfr : fresh g [] [] a). { split; [lia|]. intros H. apply Hobj in H. lia. }
  destruct (alloc_tree 0 [] [] garbage a g) as [g'| |] eqn:E; unfold alloc_tree in E; rewrite (maybe_not_due _ _ _ _ Hnd) in E; try discriminate.
  exists g'. split; [apply (run_alloc anyhow ops g g' 0 [] [] garbage a Hr Hfr I); unfold alloc_tree; rewrite (maybe_not_due _ _ _ _ Hnd); exact E|].
  cbn [gbind] in E. set (g2 := match gc_inhibited g with O => _ | S _ => g end) in E.
  assert (Hsame : objects g2 = objects g /\ allocs g2 = allocs g /\ alloc_ptr g2 = alloc_ptr g /\ gc_inhibited g2 = gc_inhibited g /\
    collect_counter g2 = match gc_inhibited g with O => collect_counter g + 1 | S _ => collect_counter g end).
  { unfold g2. destruct (gc_inhibited g) eqn:He; cbn; rewrite ?He; auto. }
  clearbody g2. destruct Hsame as (S1 & S2 & S3 & S4 & S5). injection E as <-. unfold track_new_alloc. cbn [alloc_ptr gc_inhibited allocs collect_counter objects].
  rewrite S1, S2, S3, S4, S5. split; [|split; [reflexivity|split; [reflexivity|split; [discriminate|reflexivity]]]].
  split; cbn [objects alloc_ptr allocs].
  - intros x. unfold is_obj. destruct (Z.eq_dec x a) as [->|Hx]; [rewrite upd_same; split; [unfold a; lia|discriminate]|].
    rewrite upd_other by exact Hx. rewrite (Hobj x). unfold a in Hx. lia.
  - set (l0 := match allocs g with Some l => l | None => repeat 0 initial_size end).
    assert (Hl0 : (Z.of_nat (alloc_ptr g) <= 10000 /\ Z.of_nat (length l0) = 10000) \/
      (10000 < Z.of_nat (alloc_ptr g) <= 20000 /\ Z.of_nat (length l0) = 20000 /\
       forall i, 11250 <= Z.of_nat i < 20000 -> (alloc_ptr g <= i)%nat -> nth i l0 0 = v)).
    { unfold l0. destruct (allocs g) as [l|]; [exact (proj2 Harr)|]. left. rewrite Harr, repeat_length. unfold initial_size. lia. }
    assert (Hpre : forall i, (i < alloc_ptr g)%nat -> nth i l0 0 = Z.of_nat (S i)).
    { unfold l0. destruct (allocs g) as [l|]; [exact (proj1 Harr)|]. rewrite Harr. intros i Hi. lia. }
    clearbody l0. clear Harr. split.
    { intros i Hi. set (l1 := if (length l0 <=? alloc_ptr g)%nat then extend_allocs garbage l0 else l0).
      assert (Hl1 : (alloc_ptr g < length l1)%nat /\ forall i, (i < alloc_ptr g)%nat -> nth i l1 0 = nth i l0 0).
      { unfold l1. destruct (Nat.leb_spec (length l0) (alloc_ptr g)) as [Hfull|Hroom]; [|split; auto]. split.
        - unfold extend_allocs. rewrite !app_length, repeat_length, map_length, seq_length. lia.
        - intros j Hj. unfold extend_allocs. apply app_nth1. lia. }
      destruct Hl1 as [Hlen Hsame1]. destruct (Nat.eq_dec i (alloc_ptr g)) as [->|Hne]; [apply set_nth_same, Hlen|].
      rewrite set_nth_other by exact Hne. rewrite Hsame1 by lia. apply Hpre. lia. }
    destruct (Nat.leb_spec (length l0) (alloc_ptr g)) as [Hfull|Hroom].
    + right. rewrite set_nth_length. assert (H10 : Z.of_nat (length l0) = 10000) by lia. assert (Hp : Z.of_nat (alloc_ptr g) = 10000) by lia.
      assert (H8 : Z.of_nat (length l0 / 8) = 1250) by (rewrite Nat2Z.inj_div, H10; reflexivity).
      split; [lia|]. split.
      * unfold extend_allocs. rewrite !app_length, repeat_length, map_length, seq_length. lia.
      * intros i Hi Hpi. rewrite set_nth_other by lia. unfold extend_allocs. rewrite app_nth2 by lia. rewrite app_nth2 by (rewrite repeat_length; lia).
        rewrite repeat_length. set (k := (i - length l0 - length l0 / 8)%nat). set (m := seq _ _).
        assert (Hk : (k < length m)%nat) by (unfold m; rewrite seq_length; lia). clearbody k m. clear - Hk.
        revert k Hk. induction m as [|b m IH]; intros [|k] Hk; cbn in *; try lia; [reflexivity|apply IH; lia].
    + rewrite set_nth_length. destruct Hl0 as [Hl0|(A & B & C)]; [left; lia|]. right. split; [lia|]. split; [exact B|].
      intros i Hi Hpi. rewrite set_nth_other by lia. apply C; [exact Hi|lia].
Qed.

Lemma dense_enabled v n : (n <= 2001)%nat -> exists g, runs_to anyhow (repeat Alloc n) g /\ dense v g /\ alloc_ptr g = n /\ gc_inhibited g = O /\
  collect_counter g = Z.of_nat n /\ (n <> O -> allocs g <> None).
Proof.
  induction n as [|n IH]; intros Hn.
  - exists gc_start. split; [constructor|]. split; [|cbn; repeat split; congruence]. split; cbn; [|reflexivity]. intros x. unfold is_obj. split; [congruence|lia].
  - destruct IH as (g & Hr & Hd & Hp & Hi & Hc & _); [lia|]. destruct (dense_alloc v _ g Hr Hd) as (g' & Hr' & Hd' & Hp' & Hi' & Ha' & Hc').
    + intros [_ H]. lia.
    + lia.
    + exists g'. split; [exact Hr'|]. split; [exact Hd'|]. split; [congruence|]. split; [congruence|]. split; [|auto]. rewrite Hc', Hi, Hc. lia.
Qed.
Lemma dense_inhibited v ops g m : runs_to anyhow ops g -> dense v g -> gc_inhibited g <> O -> Z.of_nat (alloc_ptr g + m) <= 20000 -> allocs g <> None ->
  exists g', runs_to anyhow (repeat Alloc m ++ ops) g' /\ dense v g' /\ alloc_ptr g' = (alloc_ptr g + m)%nat /\ gc_inhibited g' = gc_inhibited g /\
    collect_counter g' = collect_counter g /\ allocs g' <> None.
Proof.
  intros Hr Hd Hi Hm Ha. induction m as [|m IH].
  - exists g. rewrite Nat.add_0_r. auto 10.
  - destruct IH as (g1 & Hr1 & Hd1 & Hp1 & Hi1 & Hc1 & Ha1); [lia|]. destruct (dense_alloc v _ g1 Hr1 Hd1) as (g' & Hr' & Hd' & Hp' & Hi' & Ha' & Hc').
    + intros [H _]. congruence.
    + lia.
    + exists g'. split; [exact Hr'|]. split; [exact Hd'|]. split; [lia|]. split; [congruence|]. split; [|exact Ha']. rewrite Hc', Hi1.
      destruct (gc_inhibited g); [contradiction|exact Hc1].
Qed.

(** A collection becomes due when [alloc_ptr] has any given value. *)
Lemma dense_due v n : 2001 <= Z.of_nat n <= 20000 -> exists ops g, runs_to anyhow ops g /\ dense v g /\ due g /\ alloc_ptr g = n /\ allocs g <> None.
Proof.
  intros Hn. destruct (dense_enabled v 2001 (le_n _)) as (g & Hr & Hd & Hp & Hi & Hc & Ha).
  destruct (dense_inhibited v (Inhibit :: repeat Alloc 2001) (inhibit_gc g) (n - 2001)) as (g' & Hr' & Hd' & Hp' & Hi' & Hc' & Ha').
  - constructor. exact Hr.
  - exact Hd.
  - discriminate.
  - cbn [inhibit_gc alloc_ptr]. lia.
  - apply Ha. discriminate.
  - cbn [inhibit_gc alloc_ptr gc_inhibited collect_counter] in *. exists (Enable :: repeat Alloc (n - 2001) ++ Inhibit :: repeat Alloc 2001), (enable_gc g').
    split; [constructor; exact Hr'|]. split; [exact Hd'|]. split; [split; cbn; [rewrite Hi', Hi; reflexivity|rewrite Hc', Hc; reflexivity]|].
    split; [cbn; lia|exact Ha'].
Qed.

Lemma array_full : exists ops g, runs_to anyhow ops g /\ forall fuel words statics garbage a, alloc_tree fuel words statics garbage a g = GUB.
Proof.
  destruct (dense_due 20001 (Z.to_nat 10000)) as (ops & g & Hr & Hd & Hdue & Hp & Ha); [lia|]. exists ops, g. split; [exact Hr|].
  intros. apply full_alloc; [exact Hdue|]. destruct Hd as [_ Hd]. destruct (allocs g) as [l|] eqn:Hl; [|contradiction]. exists l. split; [exact Hl|]. destruct Hd as [_ Hd]. lia.
Qed.
Lemma array_extended : exists ops g, runs_to anyhow ops g /\ ~ full g /\
  forall fuel words statics garbage a g', alloc_tree fuel words statics garbage a g <> GOk g'.
Proof.
  destruct (dense_due 20001 (Z.to_nat 11250)) as (ops & g & Hr & Hd & Hdue & Hp & Ha); [lia|]. exists ops, g. split; [exact Hr|].
  destruct Hd as [Hobj Hd]. destruct (allocs g) as [l|] eqn:Hl; [|contradiction]. destruct Hd as [Hpre Hd]. destruct Hd as [Hd|(A & B & C)]; [lia|].
  split; [intros (l' & Hl' & Hlen); rewrite Hl in Hl'; injection Hl' as <-; lia|].
  intros fuel words statics garbage a g' E. unfold alloc_tree in E. rewrite (maybe_due _ _ _ _ Hdue) in E.
  match type of E with context [collect ?f ?w ?s ?g0] => destruct (collect f w s g0) as [g1| |] eqn:E1; try discriminate;
    apply (garbage_collect f w s g0 l 20001 g1 Hl) in E1; [exact E1| | | |] end; cbn [alloc_ptr objects].
  - lia.
  - apply C; lia.
  - lia.
  - destruct (objects g 20001) eqn:Ho; [|reflexivity]. exfalso. assert (H : is_obj (objects g) 20001) by (unfold is_obj; rewrite Ho; discriminate).
    apply Hobj in H. lia.
Qed.

(** The memory from realloc may still contain the address of an object: then a collection frees this object though it is live. *)
Lemma live_freed : exists ops g fuel words statics garbage a g' x, runs_to anyhow ops g /\ fresh g words statics a /\ a <> x /\
  alloc_tree fuel words statics garbage a g = GOk g' /\ live (objects g) words statics x /\ objects g' x = None.
Proof.
  destruct (dense_due 1 (Z.to_nat 11250)) as (ops & g0 & Hr0 & Hd & Hdue0 & Hp0 & Ha0); [lia|].
  (* the objects have no links *)
  set (h0 := fun x : Z => match objects g0 x with Some _ => Some (mkobj false 0 [] []) | None => None end).
  set (g := mkgc (gc_inhibited g0) (alloc_ptr g0) (allocs g0) (collect_counter g0) h0 (frees g0)).
  assert (Hr : runs_to anyhow (Change :: ops) g).
  { apply run_change; [exact Hr0| |].
    - intros a. unfold h0, is_obj. destruct (objects g0 a); split; congruence.
    - intros a (o & Ho & Hm). unfold h0 in Ho. destruct (objects g0 a); [injection Ho as <-|]; discriminate. }
  destruct Hd as [Hobj0 Hd]. destruct (allocs g0) as [l|] eqn:Hl; [|contradiction]. destruct Hd as [Hpre Hd]. destruct Hd as [Hd|(A & B & C)]; [lia|].
  assert (Hobj : forall x, is_obj h0 x <-> 1 <= x <= 11250).
  { intros x. rewrite <- (Z2Nat.id 11250) at 1 by lia. rewrite <- Hp0, <- Hobj0. unfold h0, is_obj. destruct (objects g0 x); split; congruence. }
  assert (Hdue : due g) by exact Hdue0.
  set (p := alloc_ptr g0) in *. assert (Hp : Z.of_nat p = 11250) by lia. clear Hp0.
  set (q := qsort (firstn p l)).
  assert (Hf : firstn p l = map (fun i => Z.of_nat (S i)) (seq 0 p)).
  { apply (nth_ext _ _ 0 (Z.of_nat (S 0))); [rewrite map_length, seq_length, firstn_length; lia|]. intros i Hi. rewrite firstn_length in Hi.
    rewrite (map_nth (fun i => Z.of_nat (S i)) (seq 0 p) 0%nat i), seq_nth by lia. change (0 + i)%nat with i. rewrite <- (Hpre i) by lia.
    rewrite <- (firstn_skipn p l) at 2. rewrite app_nth1 by (rewrite firstn_length; lia). reflexivity. }
  assert (Hq : Permutation (map (fun i => Z.of_nat (S i)) (seq 0 p)) q) by (unfold q; rewrite <- Hf; apply qsort_perm).
  assert (Hqlen : length q = p) by (rewrite <- (Permutation_length Hq), map_length, seq_length; reflexivity).
  assert (Hqin : forall x, In x q <-> 1 <= x <= 11250).
  { intros x. split.
    - intros H. apply (Permutation_in x (Permutation_sym Hq)), in_map_iff in H as (i & <- & Hi). apply in_seq in Hi. lia.
    - intros H. apply (Permutation_in x Hq), in_map_iff. exists (Z.to_nat (x - 1)). split; [lia|]. apply in_seq. lia. }
  assert (Hqnd : NoDup q).
  { eapply Permutation_NoDup; [exact Hq|]. apply FinFun.Injective_map_NoDup; [intros i j Hij; lia|apply seq_NoDup]. }
  assert (Hqs : StronglySorted (fun x y => y <= x) (q ++ [1])).
  { pose proof (qsort_sorted (firstn p l)) as Hs. fold q in Hs. assert (Hge : forall x, In x q -> 1 <= x) by (intros x Hx; apply Hqin in Hx; lia).
    clear - Hs Hge. induction Hs as [|a m Hs IH Hfa]; cbn; [repeat constructor|]. constructor; [apply IH; intros x Hx; apply Hge; right; exact Hx|].
    apply Forall_app. split; [exact Hfa|]. repeat constructor. apply Hge. left. reflexivity. }
  destruct (skipn p l) as [|v rest] eqn:Hskip; [apply (f_equal (@length Z)) in Hskip; rewrite skipn_length in Hskip; cbn in Hskip; lia|].
  assert (Hv : v = 1).
  { rewrite <- (C p) by lia. rewrite <- (firstn_skipn p l), Hskip. rewrite app_nth2 by (rewrite firstn_length; lia).
    rewrite firstn_length_le, Nat.sub_diag by lia. reflexivity. }
  subst v.
  assert (Hlq : length (q ++ [1]) = S p) by (rewrite app_length, Hqlen; cbn; lia).
  set (o1 := mkobj true 0 [] []). set (h1 := upd h0 1 (Some o1)).
  assert (Hh01 : h0 1 = Some (mkobj false 0 [] [])).
  { assert (H1 : is_obj h0 1) by (apply Hobj; lia). unfold is_obj, h0 in *. destruct (objects g0 1); [reflexivity|contradiction H1; reflexivity]. }
  destruct (sweep_ok q h1 (frees g0) [] Hqnd) as (h2 & Hsw & Hspec).
  { intros x Hx. apply Hqin in Hx. unfold is_obj, h1. destruct (Z.eq_dec x 1) as [->|Hne]; [rewrite upd_same; discriminate|].
    rewrite upd_other by exact Hne. apply Hobj. exact Hx. }
  assert (Hh2 : h2 1 = Some (mkobj false 0 [] [])).
  { rewrite (Hspec 1). unfold h1. rewrite upd_same. destruct (in_dec Z.eq_dec 1 q) as [|Hn]; [reflexivity|]. exfalso. apply Hn, Hqin. lia. }
  assert (Hcol : exists g1, collect 1 [1] [] (mkgc (gc_inhibited g) (alloc_ptr g) (allocs g) (collect_counter g + 1) (objects g) (frees g)) = GOk g1 /\ objects g1 1 = None).
  { unfold collect. cbn [allocs alloc_ptr objects frees g]. unfold fixup_alloc_array. fold q. rewrite Hskip.
    replace (length (q ++ 1%Z :: rest) <=? p)%nat with false by (symmetry; apply Nat.leb_gt; rewrite app_length, Hqlen; cbn [length]; lia).
    assert (Hrun : run_back (q ++ 1 :: rest) p = p).
    { destruct p as [|p']; [reflexivity|]. cbn [run_back]. rewrite app_nth2, Hqlen, Nat.sub_diag by lia. reflexivity. }
    rewrite Hrun. cbn [gbind]. replace (q ++ 1 :: rest) with ((q ++ [1]) ++ rest) by (rewrite <- app_assoc; reflexivity). rewrite <- Hlq.
    assert (Hms : mark_stack 1 ((q ++ [1]) ++ rest) (length (q ++ [1])) [1] h0 = GOk h1).
    { unfold mark_stack. cbn [gfold]. unfold mark_potential_root. rewrite (proj2 (is_object_weak (q ++ [1]) rest 1 Hqs)) by (apply in_or_app; right; left; reflexivity).
      rewrite mark_object_S. change (1 =? 0) with false. cbv iota. rewrite Hh01. reflexivity. }
    rewrite Hms. cbn [gbind]. change (mark_static 1 ((q ++ [1]) ++ rest) (length (q ++ [1])) [] h1) with (GOk h1). cbn [gbind].
    rewrite firstn_app, firstn_all, Nat.sub_diag. cbn [firstn]. rewrite app_nil_r. unfold sweep.
    assert (Happ : forall l1 l2 st, gfold sweep_one (l1 ++ l2) st = gbind (gfold sweep_one l1 st) (gfold sweep_one l2)).
    { clear. induction l1 as [|x l1 IH]; intros l2 st; [reflexivity|]. cbn [app gfold]. destruct (sweep_one st x); [|reflexivity..]. apply IH. }
    rewrite Happ, Hsw. cbn [gbind]. set (fs := frees g0 ++ _). set (done := [] ++ _). clearbody fs done. cbn [gfold]. unfold sweep_one. rewrite Hh2.
    cbn [reachable dealloc_object gbind]. eexists. split; [reflexivity|]. cbn [objects]. apply upd_same. }
  destruct Hcol as (g1 & Hcol & Hnone).
  destruct (alloc_tree 1 [1] [] (fun _ => 0) 30000 g) as [g'| |] eqn:E; unfold alloc_tree in E; rewrite (maybe_due _ _ _ _ Hdue), Hcol in E; try discriminate.
  exists (Change :: ops), g, 1%nat, [1], [], (fun _ => 0), 30000, g', 1. split; [exact Hr|]. split.
  { split; [lia|]. intros H. apply Hobj in H. lia. }
  split; [lia|]. split; [unfold alloc_tree; rewrite (maybe_due _ _ _ _ Hdue), Hcol; exact E|]. split.
  - exists 1. split; [left; reflexivity|]. split; [apply Hobj; lia|constructor].
  - cbn [gbind] in E. injection E as <-. cbn [track_new_alloc objects]. rewrite upd_other by lia. exact Hnone.
Qed.
