(** C30 to C32: the garbage collector. *)
From Coq Require Import ZArith List Bool Lia Relations.
From Verif Require Import Gc SpecGc GcFacts GcFacts2.
Import ListNotations.
Local Open Scope Z_scope.

(** C30: when a collection completes, the live objects are kept unchanged and unmarked, and every other object is freed once. *)
Theorem C30_collection : forall ops g fuel words statics g',
  runs_to roomy ops g -> ~ full g -> (exists a, is_obj (objects g) a) ->
  collect fuel words statics g = GOk g' -> collected words statics g g'.
Proof. intros ops g fuel words statics g' Hr Hf Hex H. exact (proj1 (collect_ok fuel words statics g g' (proj1 (runs_inv ops g Hr)) Hf Hex H)). Qed.
Print Assumptions C30_collection.

(** The marks are clear in every state between operations, in particular after a collection. *)
Theorem C30_marks_clear : forall ops g a, runs_to roomy ops g -> ~ marked (objects g) a.
Proof. intros ops g a Hr. exact (proj1 (proj1 (runs_inv ops g Hr)) a). Qed.
Print Assumptions C30_marks_clear.

(** Without the condition on the memory that realloc adds to the array this fails: a live object can be freed. *)
Theorem C30_dirty_memory_refuted : exists ops g fuel words statics garbage a g' x,
  runs_to anyhow ops g /\ fresh g words statics a /\ a <> x /\
  alloc_tree fuel words statics garbage a g = GOk g' /\ live (objects g) words statics x /\ objects g' x = None.
Proof. exact live_freed. Qed.
Print Assumptions C30_dirty_memory_refuted.

(** The same memory can make every later collection fail, whatever the roots are. *)
Theorem C30_dirty_memory_crash_refuted : exists ops g, runs_to anyhow ops g /\ ~ full g /\
  forall fuel words statics garbage a g', alloc_tree fuel words statics garbage a g <> GOk g'.
Proof. exact array_extended. Qed.
Print Assumptions C30_dirty_memory_crash_refuted.

(** And when the array is full at the time of a collection the collector reads behind its end. *)
Theorem C30_full_array_refuted : exists ops g, runs_to anyhow ops g /\
  forall fuel words statics garbage a, alloc_tree fuel words statics garbage a g = GUB.
Proof. exact array_full. Qed.
Print Assumptions C30_full_array_refuted.

(** C31: a collection terminates when no live object is on a cycle. *)
Theorem C31_terminates : forall ops g words statics,
  runs_to roomy ops g -> ~ full g -> (exists a, is_obj (objects g) a) ->
  (forall x y, live (objects g) words statics x -> link (objects g) x y -> is_obj (objects g) y) ->
  (forall x, live (objects g) words statics x -> ~ cyclic (objects g) x) ->
  exists fuel g', collect fuel words statics g = GOk g'.
Proof. intros ops g words statics Hr. exact (collect_terminates words statics g (proj1 (runs_inv ops g Hr))). Qed.
Print Assumptions C31_terminates.

(** It never terminates when a live object is on a cycle. *)
Theorem C31_diverges : forall ops g words statics,
  runs_to roomy ops g -> ~ full g -> (exists a, is_obj (objects g) a) ->
  (forall x y, live (objects g) words statics x -> link (objects g) x y -> is_obj (objects g) y) ->
  (exists x, live (objects g) words statics x /\ cyclic (objects g) x) ->
  forall fuel, collect fuel words statics g = GFuel.
Proof. intros ops g words statics Hr H1 H2 H3 H4 fuel. exact (collect_diverges fuel words statics g (proj1 (runs_inv ops g Hr)) H1 H2 H3 H4). Qed.
Print Assumptions C31_diverges.

(** The same for marking from one object of any finite object graph. *)
Theorem C31_mark_terminates : forall h l r,
  (forall a, is_obj h a -> In a l) -> is_obj h r -> (forall x y, reaches h r x -> link h x y -> is_obj h y) ->
  (forall x, reaches h r x -> ~ cyclic h x) -> exists fuel h', mark_object fuel h r = GOk h'.
Proof.
  intros h l r Hl Hr Hs Hc. destruct (acc_terminates h r Hs Hr (acyclic_acc h l r Hl Hs Hc Hr)) as [n Hn].
  destruct (Hn r (rt1n_refl _ _ _) h (same_refl h)) as [h' H]. exists n, h'. exact H.
Qed.
Print Assumptions C31_mark_terminates.

Theorem C31_mark_diverges : forall h r x,
  r <> 0 -> is_obj h r -> (forall x y, reaches h r x -> link h x y -> is_obj h y) -> reaches h r x -> cyclic h x ->
  forall fuel, mark_object fuel h r = GFuel.
Proof.
  intros h r x H0 Hr Hs Hx Hc fuel. pose proof (mark_safe fuel h r (conj Hr Hs)) as H.
  destruct (mark_object fuel h r) as [h'| |] eqn:E; [|contradiction H; reflexivity|reflexivity]. exfalso.
  apply (cycle_diverges fuel h r h' H0); [exists x; auto|exact E].
Qed.
Print Assumptions C31_mark_diverges.

(** C32: an allocation collects exactly when nothing inhibits the collector and it is a 2002nd such allocation.  Otherwise only the
    new object is added. *)
Theorem C32_schedule : forall ops g fuel words statics garbage a g',
  runs_to roomy ops g -> fresh g words statics a -> roomy g garbage -> alloc_tree fuel words statics garbage a g = GOk g' ->
  exists h, (forall x, objects g' x = if x =? a then Some (mkobj false 0 [] []) else h x) /\
    (depth ops = O /\ (S (enabled_allocs ops) mod 2002 = 0)%nat ->
       exists g1, collected words statics g g1 /\ h = objects g1 /\ frees g' = frees g1) /\
    (~ (depth ops = O /\ (S (enabled_allocs ops) mod 2002 = 0)%nat) -> h = objects g /\ frees g' = frees g).
Proof.
  intros ops g fuel words statics garbage a g' Hr Hf Hg H. pose proof (runs_inv ops g Hr) as Hi. pose proof (due_iff ops g Hi) as Hd.
  destruct (alloc_ok ops fuel words statics garbage a g g' Hi Hf Hg H) as (_ & h & H1 & H2 & H3). exists h. split; [exact H1|].
  split; intros Hc; [apply H2, Hd, Hc|apply H3; intros Hd'; apply Hc, Hd, Hd'].
Qed.
Print Assumptions C32_schedule.

(** A collection is attempted only then: the other allocations complete with any fuel, whatever the objects are. *)
Theorem C32_no_collection : forall ops g fuel words statics garbage a,
  runs_to roomy ops g -> ~ (depth ops = O /\ (S (enabled_allocs ops) mod 2002 = 0)%nat) ->
  exists g', alloc_tree fuel words statics garbage a g = GOk g'.
Proof.
  intros ops g fuel words statics garbage a Hr Hn. unfold alloc_tree.
  rewrite maybe_not_due by (intros Hd; apply Hn, (due_iff ops g (runs_inv ops g Hr)), Hd). eexists. reflexivity.
Qed.
Print Assumptions C32_no_collection.

(** Inhibitions nest. *)
Theorem C32_nests : forall ops g, runs_to roomy ops g -> gc_inhibited g = depth ops.
Proof. intros ops g Hr. destruct (runs_inv ops g Hr) as (_ & _ & _ & H & _). exact H. Qed.
Print Assumptions C32_nests.

(** ** Examples *)
(** One more object. *)
Lemma example_alloc ops g a : runs_to roomy ops g -> objects g a = None -> 0 < a -> collect_counter g < 100 -> gc_inhibited g = O ->
  Z.of_nat (alloc_ptr g) < 100 -> (forall l, allocs g = Some l -> Z.of_nat (length l) = 10000) ->
  exists g', runs_to roomy (Alloc :: ops) g' /\ collect_counter g' = collect_counter g + 1 /\ gc_inhibited g' = O /\ alloc_ptr g' = S (alloc_ptr g) /\
    (forall l, allocs g' = Some l -> Z.of_nat (length l) = 10000) /\ (forall x, objects g' x = if x =? a then Some (mkobj false 0 [] []) else objects g x).
Proof.
  intros Hr Ho Ha Hc Hi Hp Hl. assert (Hnd : ~ due g) by (intros [_ H]; lia).
  assert (Hnf : ~ full g) by (intros (l & H1 & H2); specialize (Hl l H1); lia).
  destruct (alloc_tree 0 [] [] (fun _ => 0) a g) as [g'| |] eqn:E; unfold alloc_tree in E; rewrite (maybe_not_due _ _ _ _ Hnd), Hi in E; try discriminate.
  exists g'. split.
  { apply (run_alloc roomy ops g g' 0 [] [] (fun _ => 0) a Hr).
    - split; [exact Ha|]. intros H. contradiction.
    - split; [intros [_ H]; contradiction|]. intros H. contradiction.
    - unfold alloc_tree. rewrite (maybe_not_due _ _ _ _ Hnd), Hi. exact E. }
  cbn [gbind] in E. injection E as <-. cbn [track_new_alloc collect_counter gc_inhibited alloc_ptr allocs objects].
  split; [reflexivity|]. split; [reflexivity|]. split; [reflexivity|]. split; [|reflexivity].
  set (l0 := match allocs g with Some l => l | None => repeat 0 initial_size end).
  assert (H0 : Z.of_nat (length l0) = 10000).
  { unfold l0. destruct (allocs g) as [l|]; [apply Hl; reflexivity|]. rewrite repeat_length. unfold initial_size. lia. }
  clearbody l0. intros l [= <-]. rewrite set_nth_length. destruct (Nat.leb_spec (length l0) (alloc_ptr g)); [lia|exact H0].
Qed.

(** Three objects: 64 links to 96, 32 links to its file name 64. *)
Definition linked : heap := fun x => if x =? 64 then Some (mkobj false 0 [0; 96] []) else if x =? 96 then Some (mkobj false 0 [] [7])
  else if x =? 32 then Some (mkobj false 64 [] [8; 9]) else None.
(** The same objects, but 96 links back to 64. *)
Definition looped : heap := fun x => if x =? 96 then Some (mkobj false 0 [64] [7]) else linked x.

Lemma example_run h : (forall x, is_obj h x <-> x = 64 \/ x = 96 \/ x = 32) -> (forall x, ~ marked h x) ->
  exists g, runs_to roomy [Change; Alloc; Alloc; Alloc] g /\ ~ full g /\ objects g = h.
Proof.
  intros Ho Hm.
  destruct (example_alloc [] gc_start 64 (run_start _)) as (g1 & R1 & C1 & I1 & P1 & L1 & O1); try reflexivity; try (cbn; lia); try discriminate.
  destruct (example_alloc _ g1 96 R1) as (g2 & R2 & C2 & I2 & P2 & L2 & O2); try assumption; try (rewrite ?C1, ?P1; cbn; lia); [rewrite O1; reflexivity|].
  destruct (example_alloc _ g2 32 R2) as (g3 & R3 & C3 & I3 & P3 & L3 & O3); try assumption; try (rewrite ?C2, ?P2, ?C1, ?P1; cbn; lia);
    [rewrite O2, O1; reflexivity|].
  eexists. split; [apply (run_change roomy _ g3 h R3); [|exact Hm]|].
  - intros a. rewrite Ho. unfold is_obj. rewrite O3, O2, O1. destruct (Z.eqb_spec a 32), (Z.eqb_spec a 96), (Z.eqb_spec a 64); subst;
      split; try discriminate; try lia; intros H; try (exfalso; apply H; reflexivity); auto.
  - split; [|reflexivity]. intros (l & Hl & Hlen). cbn in Hl, Hlen. specialize (L3 l Hl). rewrite P3, P2, P1 in Hlen. cbn in Hlen. lia.
Qed.
Lemma linked_objects x : is_obj linked x <-> x = 64 \/ x = 96 \/ x = 32.
Proof.
  unfold is_obj, linked. destruct (Z.eqb_spec x 64), (Z.eqb_spec x 96), (Z.eqb_spec x 32); split; try discriminate; auto; try lia.
  intros H. exfalso. apply H. reflexivity.
Qed.
Lemma linked_unmarked x : ~ marked linked x.
Proof. intros (o & H & Hr). unfold linked in H. destruct (x =? 64), (x =? 96), (x =? 32); try discriminate; injection H as <-; discriminate. Qed.
Lemma linked_link x y : link linked x y -> x = 64 /\ y = 96 \/ x = 32 /\ y = 64.
Proof.
  intros (o & H & Hy & Hl). unfold linked in H. destruct (Z.eqb_spec x 64), (Z.eqb_spec x 96), (Z.eqb_spec x 32); try discriminate; injection H as <-; cbn in Hl; lia.
Qed.
Lemma linked_reaches x : reaches linked 64 x -> x = 64 \/ x = 96.
Proof.
  assert (G : forall r, reaches linked r x -> r = 64 \/ r = 96 -> x = 64 \/ x = 96).
  { intros r H. induction H as [|r y z Hl H IH]; intros Hr; [exact Hr|]. apply IH. apply linked_link in Hl. lia. }
  intros H. apply (G 64 H). auto.
Qed.
Lemma linked_last x : reaches linked 96 x -> x = 96.
Proof.
  assert (G : forall r, reaches linked r x -> r = 96 -> x = 96).
  { intros r H. induction H as [|r y z Hl H IH]; intros Hr; [exact Hr|]. apply IH. apply linked_link in Hl. lia. }
  intros H. apply (G 96 H eq_refl).
Qed.

(** With a pointer to 64 on the stack: a collection exists and it frees 32 and the memory of 32, and nothing else. *)
Example C30_example : exists ops g fuel g', runs_to roomy ops g /\ ~ full g /\ (exists a, is_obj (objects g) a) /\
  collect fuel [5; 64] [] g = GOk g' /\ objects g' 64 = objects g 64 /\ objects g 64 <> None /\ objects g' 96 = objects g 96 /\ objects g' 32 = None /\
  frees g' = frees g ++ [8; 9; 32].
Proof.
  destruct (example_run linked linked_objects linked_unmarked) as (g & Hr & Hf & Ho).
  assert (Hlive : forall x, live linked [5; 64] [] x <-> x = 64 \/ x = 96).
  { intros x. split.
    - intros (r & [<-|[<-|[]]] & Hi & Hx); [apply linked_objects in Hi; lia|]. apply linked_reaches, Hx.
    - intros Hx. exists 64. split; [right; left; reflexivity|]. split; [apply linked_objects; auto|]. destruct Hx as [->| ->]; [constructor|].
      eapply Relation_Operators.rt1n_trans; [|constructor]. exists (mkobj false 0 [0; 96] []). cbn. split; [reflexivity|]. split; [lia|auto]. }
  destruct (C31_terminates _ g [5; 64] [] Hr Hf) as (fuel & g' & E).
  { exists 64. rewrite Ho. apply linked_objects. auto. }
  { rewrite Ho. intros x y _ Hl. apply linked_link in Hl. apply linked_objects. lia. }
  { rewrite Ho. intros x Hx Hc. destruct (trans_first linked x x Hc) as (z & Hl & Hz). apply linked_link in Hl. apply Hlive in Hx.
    destruct Hl as [[-> ->]|[-> ->]]; [|lia]. apply linked_last in Hz. lia. }
  exists [Change; Alloc; Alloc; Alloc], g, fuel, g'. split; [exact Hr|]. split; [exact Hf|]. split; [exists 64; rewrite Ho; apply linked_objects; auto|].
  split; [exact E|]. destruct (C30_collection _ g fuel [5; 64] [] g' Hr Hf) with (2 := E) as (Hon & dead & Hnd & Hdead & Hfr).
  { exists 64. rewrite Ho. apply linked_objects. auto. }
  rewrite Ho in *. split; [|split; [discriminate|split; [|split]]].
  - rewrite (proj1 (Hon 64) (proj2 (Hlive 64) (or_introl eq_refl)) _ eq_refl). reflexivity.
  - rewrite (proj1 (Hon 96) (proj2 (Hlive 96) (or_intror eq_refl)) _ eq_refl). reflexivity.
  - apply (proj2 (Hon 32)). left. rewrite Hlive. lia.
  - rewrite Hfr. f_equal. assert (Hd : forall a, In a dead <-> a = 32) by (intros a; rewrite Hdead, Hlive, linked_objects; lia).
    destruct dead as [|a dead]; [exfalso; apply (proj2 (Hd 32)); reflexivity|]. assert (Ha : a = 32) by (apply Hd; left; reflexivity). subst a.
    destruct dead as [|b dead]; [reflexivity|]. exfalso. assert (Hb : b = 32) by (apply Hd; right; left; reflexivity). subst b.
    inversion Hnd as [|? ? H1 _]; subst. apply H1. left. reflexivity.
Qed.

(** With a link back from 96 to 64 the collection does not terminate. *)
Example C31_example : exists ops g, runs_to roomy ops g /\ ~ full g /\ forall fuel, collect fuel [64] [] g = GFuel.
Proof.
  assert (Hob : forall x, is_obj looped x <-> x = 64 \/ x = 96 \/ x = 32).
  { intros x. unfold is_obj, looped. destruct (Z.eqb_spec x 96); [split; [auto|discriminate]|]. apply linked_objects. }
  assert (Hlk : link looped 64 96 /\ link looped 96 64).
  { split; [exists (mkobj false 0 [0; 96] [])|exists (mkobj false 0 [64] [7])]; cbn; (split; [reflexivity|]; split; [lia|auto]). }
  destruct (example_run looped Hob) as (g & Hr & Hf & Ho).
  { intros x (o & H & Hm). unfold looped in H. destruct (x =? 96); [injection H as <-; discriminate|]. apply (linked_unmarked x). exists o. auto. }
  exists [Change; Alloc; Alloc; Alloc], g. split; [exact Hr|]. split; [exact Hf|]. apply (C31_diverges _ g [64] [] Hr Hf); rewrite Ho.
  - exists 64. apply Hob. auto.
  - intros x y _ (o & H & Hy & Hl). apply Hob. unfold looped, linked in H. destruct (Z.eqb_spec x 96), (Z.eqb_spec x 64), (Z.eqb_spec x 32); try discriminate;
      injection H as <-; cbn in Hl; lia.
  - exists 64. split; [exists 64; split; [left; reflexivity|]; split; [apply Hob; auto|constructor]|].
    eapply Relation_Operators.t1n_trans; [apply Hlk|]. apply t1n_step, Hlk.
Qed.

(** After 2001 allocations, the next one collects; with an inhibition in between it does not. *)
Example C32_example : (enabled_allocs (repeat Alloc 2001) = 2001 /\ depth (Inhibit :: Enable :: Enable :: repeat Alloc 2001) = 1 /\
  depth (Enable :: Inhibit :: repeat Alloc 2001) = 0 /\ S 2001 mod 2002 = 0)%nat.
Proof. repeat split; vm_compute; reflexivity. Qed.
