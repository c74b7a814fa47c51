(** Lemmas about the collector model. *)
From Coq Require Import ZArith List Bool Lia Relations Permutation Sorted.
From Verif Require Import Gc SpecGc.
Import ListNotations.
Local Open Scope Z_scope.

(** ** Marking *)
Lemma upd_same h a o : upd h a o a = o.
Proof. unfold upd. rewrite Z.eqb_refl. reflexivity. Qed.
Lemma upd_other h a o x : x <> a -> upd h a o x = h x.
Proof. intros H. unfold upd. destruct (Z.eqb_spec x a); [contradiction|reflexivity]. Qed.

Lemma same_refl h : same_objects h h.
Proof. intros a. destruct (h a); auto. Qed.
Lemma same_trans h1 h2 h3 : same_objects h1 h2 -> same_objects h2 h3 -> same_objects h1 h3.
Proof.
  intros H1 H2 a. specialize (H1 a). specialize (H2 a). destruct (h1 a), (h2 a), (h3 a); try tauto.
  destruct H1 as (A & B & C), H2 as (D & E & F). rewrite D, E, F. auto.
Qed.
Lemma same_sym h1 h2 : same_objects h1 h2 -> same_objects h2 h1.
Proof. intros H a. specialize (H a). destruct (h1 a), (h2 a); try tauto. destruct H as (A & B & C). auto. Qed.
Lemma same_mark h a o : h a = Some o -> same_objects h (upd h a (Some (set_mark true o))).
Proof.
  intros H x. destruct (Z.eq_dec x a) as [->|Hx]; [rewrite upd_same, H; cbn; auto|]. rewrite upd_other by exact Hx. destruct (h x); auto.
Qed.
Lemma same_link h h' a b : same_objects h h' -> link h a b -> link h' a b.
Proof.
  intros H (o & Ho & Hb & Hl). specialize (H a). rewrite Ho in H. destruct (h' a) as [o'|] eqn:Ho'; [|contradiction].
  destruct H as (A & B & _). exists o'. rewrite A, B. auto.
Qed.
Lemma same_reaches h h' a b : same_objects h h' -> reaches h a b -> reaches h' a b.
Proof. intros H Hr. induction Hr as [|x y z Hl Hr IH]; [constructor|]. econstructor; [eapply same_link; eauto|exact IH]. Qed.
Lemma same_is_obj h h' a : same_objects h h' -> is_obj h a <-> is_obj h' a.
Proof. intros H. specialize (H a). unfold is_obj. destruct (h a), (h' a); try tauto; split; congruence. Qed.
Lemma reaches_trans h a b c : reaches h a b -> reaches h b c -> reaches h a c.
Proof. intros H1 H2. induction H1 as [|x y z Hl Hr IH]; [exact H2|]. econstructor; [exact Hl|apply IH, H2]. Qed.

(** What a marking function does. *)
Definition marks (f : heap -> Z -> gres heap) : Prop :=
  forall h a h', f h a = GOk h' -> same_objects h h' /\ forall x, marked h' x <-> marked h x \/ (a <> 0 /\ reaches h a x).
(** What marking from several objects does. *)
Definition marks_all (h h' : heap) (l : list Z) : Prop :=
  same_objects h h' /\ forall x, marked h' x <-> marked h x \/ exists a, In a l /\ a <> 0 /\ reaches h a x.

Lemma marks_all_nil h : marks_all h h [].
Proof. split; [apply same_refl|]. intros x. split; [auto|]. intros [H|(a & [] & _)]; exact H. Qed.
Lemma marks_all_cons h h1 h2 a l : marks_all h h1 [a] -> marks_all h1 h2 l -> marks_all h h2 (a :: l).
Proof.
  intros (A & B) (C & D). split; [eapply same_trans; eauto|]. intros x. rewrite D, B. split.
  - intros [[H|(b & [<-|[]] & H1 & H2)]|(b & Hb & H1 & H2)]; [auto| |].
    + right. exists a. cbn. auto.
    + right. exists b. split; [right; exact Hb|]. split; [exact H1|]. eapply same_reaches; [apply same_sym, A|exact H2].
  - intros [H|(b & [<-|Hb] & H1 & H2)]; [auto| |].
    + left. right. exists a. cbn. auto.
    + right. exists b. split; [exact Hb|]. split; [exact H1|]. eapply same_reaches; [exact A|exact H2].
Qed.
Lemma gfold_marks f : marks f -> forall l h h', gfold f l h = GOk h' -> marks_all h h' l.
Proof.
  intros Hf. induction l as [|a l IH]; intros h h' H; cbn in H; [injection H as <-; apply marks_all_nil|].
  destruct (f h a) as [h1| |] eqn:H1; try discriminate. cbn in H. apply (marks_all_cons h h1 h' a l); [|apply IH, H].
  destruct (Hf _ _ _ H1) as [A B]. split; [exact A|]. intros x. rewrite B. split.
  - intros [Hx|[Hx Hy]]; [auto|]. right. exists a. cbn. auto.
  - intros [Hx|(b & [<-|[]] & Hx & Hy)]; auto.
Qed.

Lemma marks_tree f : marks f -> marks (mark_tree f).
Proof.
  intros Hf h a h' H. unfold mark_tree in H. destruct (Z.eqb_spec a 0) as [->|Ha].
  - injection H as <-. split; [apply same_refl|]. intros x. tauto.
  - destruct (h a) as [o|] eqn:Ho; [|discriminate]. destruct (Z.eqb_spec (file o) 0) as [Hz|Hz].
    + cbn in H. apply (Hf _ _ _ H).
    + destruct (f h (file o)) as [h1| |] eqn:H1; try discriminate. cbn in H. destruct (Hf _ _ _ H1) as [A B], (Hf _ _ _ H) as [C D].
      split; [eapply same_trans; eauto|]. intros x. rewrite D, B. split.
      * intros [[Hx|[_ Hx]]|[_ Hx]]; [auto| |].
        -- right. split; [exact Ha|]. apply (Relation_Operators.rt1n_trans _ _ a (file o) x); [exists o; auto|exact Hx].
        -- right. split; [exact Ha|]. eapply same_reaches; [apply same_sym, A|exact Hx].
      * intros [Hx|[_ Hx]]; [auto|]. right. split; [exact Ha|]. eapply same_reaches; eauto.
Qed.

Lemma marks_object fuel : marks (mark_object fuel).
Proof.
  induction fuel as [|fuel IH]; intros h a h' H; cbn in H; [discriminate|]. destruct (Z.eqb_spec a 0) as [->|Ha].
  { injection H as <-. split; [apply same_refl|]. intros x. tauto. }
  destruct (h a) as [o|] eqn:Ho; [|discriminate]. set (h0 := upd h a (Some (set_mark true o))) in H.
  destruct (mark_tree (mark_object fuel) h0 (file o)) as [h1| |] eqn:H1; try discriminate. cbn in H.
  destruct (marks_tree _ IH _ _ _ H1) as [A1 B1]. apply (gfold_marks _ (marks_tree _ IH)) in H.
  assert (H01 : marks_all h0 h1 [file o]).
  { split; [exact A1|]. intros x. rewrite B1. split.
    - intros [Hx|[Hx Hy]]; [auto|right; exists (file o); cbn; auto].
    - intros [Hx|(b & [<-|[]] & Hx & Hy)]; auto. }
  destruct (marks_all_cons h0 h1 h' (file o) (kids o) H01 H) as [A B]. pose proof (same_mark h a o Ho) as Hs. fold h0 in Hs.
  split; [eapply same_trans; eauto|]. intros x. rewrite B.
  assert (Hm : marked h0 x <-> marked h x \/ x = a).
  { unfold h0, marked. destruct (Z.eq_dec x a) as [->|Hx].
    - rewrite upd_same. split; [auto|]. intros _. exists (set_mark true o). auto.
    - rewrite upd_other by exact Hx. tauto. }
  rewrite Hm. split.
  - intros [[Hx| ->]|(b & Hb & Hb0 & Hx)]; [auto|right; split; [exact Ha|constructor]|].
    right. split; [exact Ha|]. apply (Relation_Operators.rt1n_trans _ _ a b x); [|eapply same_reaches; [apply same_sym, Hs|exact Hx]].
    exists o. split; [exact Ho|]. split; [exact Hb0|]. destruct Hb; auto.
  - intros [Hx|[_ Hx]]; [auto|]. destruct Hx as [|y x (o' & Ho' & Hy & Hl) Hr]; [auto|].
    assert (o' = o) as -> by congruence. right. exists y. split; [destruct Hl as [Hl|Hl]; [left; exact Hl|right; exact Hl]|].
    split; [exact Hy|]. eapply same_reaches; eauto.
Qed.

(** ** The array *)
Lemma compare_le a b : compare_allocs a b <=? 0 = true <-> b <= a.
Proof.
  unfold compare_allocs. destruct (Z.ltb_spec a b); [split; [discriminate|lia]|]. destruct (Z.ltb_spec b a); split; auto; lia.
Qed.

Lemma insert_perm a l : Permutation (a :: l) (insert a l).
Proof.
  induction l as [|b l IH]; cbn; [auto|]. destruct (compare_allocs a b <=? 0); [auto|].
  eapply perm_trans; [apply perm_swap|]. constructor. exact IH.
Qed.
Lemma qsort_perm l : Permutation l (qsort l).
Proof. induction l as [|a l IH]; cbn; [auto|]. eapply perm_trans; [constructor; exact IH|apply insert_perm]. Qed.
Lemma insert_sorted a l : StronglySorted (fun x y => y <= x) l -> StronglySorted (fun x y => y <= x) (insert a l).
Proof.
  induction 1 as [|b l Hs IH Hf]; cbn; [repeat constructor|]. destruct (compare_allocs a b <=? 0) eqn:H.
  - apply compare_le in H. constructor; [constructor; assumption|]. constructor; [exact H|]. eapply Forall_impl; [|exact Hf]. cbn. lia.
  - constructor; [exact IH|]. eapply Permutation_Forall; [apply insert_perm|]. constructor; [|exact Hf].
    destruct (Z.le_gt_cases b a) as [Hle|]; [apply compare_le in Hle; congruence|lia].
Qed.
Lemma qsort_sorted l : StronglySorted (fun x y => y <= x) (qsort l).
Proof. induction l as [|a l IH]; cbn; [constructor|]. apply insert_sorted, IH. Qed.

Definition nonzero (l : list Z) : list Z := filter (fun a => negb (a =? 0)) l.
Lemma in_nonzero a l : In a (nonzero l) <-> In a l /\ a <> 0.
Proof. unfold nonzero. rewrite filter_In, negb_true_iff, Z.eqb_neq. tauto. Qed.
Lemma sorted_zeros l : StronglySorted (fun x y => y <= x) l -> Forall (fun a => 0 <= a) l ->
  exists k, l = nonzero l ++ repeat 0 k.
Proof.
  induction 1 as [|a l Hs IH Hf]; intros Hp; [exists O; reflexivity|]. inversion Hp as [|? ? Ha Hl]; subst.
  destruct (IH Hl) as [k Hk]. unfold nonzero. cbn [filter]. fold (nonzero l). destruct (Z.eqb_spec a 0) as [->|Hz]; cbn [negb].
  - exists (S k). assert (Hn : nonzero l = []).
    { destruct (nonzero l) as [|b m] eqn:Hb; [reflexivity|]. exfalso. assert (Hin : In b (nonzero l)) by (rewrite Hb; left; reflexivity).
      apply in_nonzero in Hin as [Hin H0]. rewrite Forall_forall in Hf, Hl. specialize (Hf b Hin). specialize (Hl b Hin). lia. }
    rewrite Hn in Hk |- *. cbn in Hk |- *. congruence.
  - exists k. cbn. congruence.
Qed.

Lemma filter_perm {A} (f : A -> bool) l l' : Permutation l l' -> Permutation (filter f l) (filter f l').
Proof.
  induction 1; cbn; auto.
  - destruct (f x); auto.
  - destruct (f x), (f y); auto. apply perm_swap.
  - eapply perm_trans; eauto.
Qed.

Lemma run_back_zeros s k z : s <> [] -> Forall (fun a => a <> 0) s -> Forall (fun a => a = 0) z -> z <> [] ->
  forall n, (n <= k)%nat -> run_back (s ++ repeat 0 k ++ z) (length s + n)%nat = pred (length s).
Proof.
  intros Hs Hnz Hz Hz0 n. induction n as [|n IH]; intros Hn.
  - rewrite Nat.add_0_r.
    assert (Hzero : nth (length s) (s ++ repeat 0 k ++ z) 0 = 0).
    { rewrite app_nth2, Nat.sub_diag by lia. destruct k; [destruct z as [|x z]; [contradiction|inversion Hz; subst; reflexivity]|reflexivity]. }
    destruct (length s) as [|m] eqn:Hl; [destruct s; [contradiction|discriminate]|]. cbn [run_back pred].
    rewrite Hzero. cbn. destruct m as [|m]; [reflexivity|].
    cbn [run_back]. rewrite app_nth1 by lia. rewrite Forall_forall in Hnz.
    assert (Hin : nth (S m) s 0 <> 0) by (apply Hnz, nth_In; lia). destruct (Z.eqb_spec (nth (S m) s 0) 0); [contradiction|reflexivity].
  - assert (Hzero : nth (length s + S n) (s ++ repeat 0 k ++ z) 0 = 0).
    { rewrite app_nth2 by lia. replace (length s + S n - length s)%nat with (S n) by lia.
      destruct (le_lt_dec (S n) (k - 1)) as [Hlt|Hge].
      - rewrite app_nth1 by (rewrite repeat_length; lia). apply nth_repeat.
      - rewrite app_nth2 by (rewrite repeat_length; lia). rewrite repeat_length. replace (S n - k)%nat with O by lia.
        destruct z as [|x z]; [contradiction|inversion Hz; subst; reflexivity]. }
    rewrite Nat.add_succ_r in *. cbn [run_back]. rewrite Hzero. cbn. apply IH. lia.
Qed.

(** The state of the array between operations. *)
Definition array_ok (h : heap) (l : list Z) (ptr : nat) : Prop :=
  (ptr <= length l /\ 0 < length l)%nat /\ NoDup (nonzero (firstn ptr l)) /\ (forall a, is_obj h a <-> In a (nonzero (firstn ptr l))) /\
  Forall (fun a => 0 <= a) (firstn ptr l) /\ Forall (fun a => a = 0) (skipn ptr l).

(** The fix-up leaves the addresses of the objects, in descending order, and zeros behind. *)
Lemma fixup_ok h l ptr : array_ok h l ptr -> (ptr < length l)%nat -> nonzero (firstn ptr l) <> [] ->
  exists s z, fixup_alloc_array l ptr = GOk (s ++ z, length s) /\ StronglySorted (fun x y => y < x) s /\ NoDup s /\
    (forall a, is_obj h a <-> In a s) /\ Forall (fun a => 0 < a) s /\ Forall (fun a => a = 0) z /\ length (s ++ z) = length l /\
    (length s <= ptr)%nat.
Proof.
  intros (Hle & Hnd & Hobj & Hpos & Hz) Hlt Hne. set (p := firstn ptr l) in *.
  assert (Hperm := qsort_perm p). assert (Hsort := qsort_sorted p).
  assert (Hpos' : Forall (fun a => 0 <= a) (qsort p)) by (eapply Permutation_Forall; eauto).
  destruct (sorted_zeros _ Hsort Hpos') as [k Hk]. set (s := nonzero (qsort p)) in *.
  assert (Hps : Permutation (nonzero p) s) by (apply filter_perm, Hperm).
  assert (Hs0 : s <> []) by (intros H; rewrite H in Hps; apply Permutation_sym, Permutation_nil in Hps; contradiction).
  assert (Hlen : (length s + k = ptr)%nat).
  { pose proof (Permutation_length Hperm) as H. rewrite Hk, app_length, repeat_length in H. unfold p in H. rewrite firstn_length_le in H by lia. lia. }
  assert (Hnz : Forall (fun a => a <> 0) s) by (apply Forall_forall; intros a Ha; apply in_nonzero in Ha; tauto).
  assert (Hz0 : skipn ptr l <> []) by (intros H; apply (f_equal (@length Z)) in H; rewrite skipn_length in H; cbn in H; lia).
  assert (Hs1 : (0 < length s)%nat) by (destruct s; [contradiction|cbn; lia]).
  exists s, (repeat 0 k ++ skipn ptr l).
  assert (Hsorted : StronglySorted (fun x y => y < x) s).
  { assert (Hss : StronglySorted (fun x y => y <= x) s).
    { unfold s, nonzero. clear - Hsort. induction Hsort as [|a m Hs IH Hf]; cbn; [constructor|]. destruct (negb (a =? 0)); [|exact IH].
      constructor; [exact IH|]. apply Forall_forall. intros b Hb. apply filter_In in Hb as [Hb _]. rewrite Forall_forall in Hf. apply Hf, Hb. }
    assert (Hnds : NoDup s) by (eapply Permutation_NoDup; eauto).
    clear - Hss Hnds. generalize dependent s. intros s Hss Hnds. induction Hss as [|a m Hs IH Hf]; [constructor|]. inversion Hnds as [|? ? H1 H2]; subst. constructor; [apply IH, H2|].
    apply Forall_forall. intros b Hb. rewrite Forall_forall in Hf. specialize (Hf b Hb). assert (a <> b) by (intros ->; contradiction). lia. }
  split; [|split; [|split; [|split; [|split; [|split; [|split]]]]]].
  - unfold fixup_alloc_array. fold p. rewrite Hk, <- app_assoc.
    replace (length (s ++ repeat 0%Z k ++ skipn ptr l) <=? ptr)%nat with false.
    + pose proof (run_back_zeros s k (skipn ptr l) Hs0 Hnz Hz Hz0 k (le_n k)) as Hrb. rewrite Hlen in Hrb. rewrite Hrb. f_equal. f_equal. lia.
    + symmetry. apply Nat.leb_gt. rewrite !app_length, repeat_length, skipn_length. lia.
  - exact Hsorted.
  - eapply Permutation_NoDup; eauto.
  - intros a. rewrite Hobj. split; intros H; [eapply Permutation_in; eauto|eapply Permutation_in; [apply Permutation_sym, Hps|exact H]].
  - apply Forall_forall. intros a Ha. apply in_nonzero in Ha as [Ha H0]. rewrite Forall_forall in Hpos'. specialize (Hpos' a Ha). lia.
  - apply Forall_app. split; [|exact Hz]. apply Forall_forall. intros a Ha. apply repeat_spec in Ha. exact Ha.
  - rewrite !app_length, repeat_length, skipn_length. lia.
  - lia.
Qed.

(** ** Binary search *)
Lemma sorted_nth s : StronglySorted (fun x y => y <= x) s -> forall i j, (i < j < length s)%nat -> nth j s 0 <= nth i s 0.
Proof.
  induction 1 as [|a l Hs IH Hf]; intros i j Hij; [cbn in Hij; lia|]. cbn in Hij. destruct j as [|j]; [lia|]. destruct i as [|i]; cbn.
  - rewrite Forall_forall in Hf. apply Hf, nth_In. lia.
  - apply IH. lia.
Qed.
Lemma bsearch_iff s z key : StronglySorted (fun x y => y <= x) s -> forall fuel lo n, (n <= fuel)%nat -> (lo + n <= length s)%nat ->
  bsearch fuel key (s ++ z) lo n = true <-> exists i, (lo <= i < lo + n)%nat /\ nth i s 0 = key.
Proof.
  intros Hs. induction fuel as [|fuel IH]; intros lo n Hn Hl; cbn [bsearch].
  { destruct n; [|lia]. split; [discriminate|]. intros (i & Hi & _). lia. }
  destruct n as [|n]; [split; [discriminate|]; intros (i & Hi & _); lia|].
  set (m := Nat.div2 (S n)). assert (Hm : (m <= n)%nat) by (unfold m; pose proof (Nat.lt_div2 (S n)); lia). clearbody m.
  assert (Hnth : nth (lo + m) (s ++ z) 0 = nth (lo + m) s 0) by (apply app_nth1; lia). rewrite Hnth. set (v := nth (lo + m) s 0).
  unfold compare_allocs. destruct (Z.ltb_spec key v) as [Hlt|Hge].
  - change (1 =? 0) with false. change (1 <? 0) with false. cbv iota. rewrite IH by lia. split; intros (i & Hi & He); exists i; (split; [|exact He]).
    + lia.
    + destruct (le_lt_dec i (lo + m)) as [Hi'|]; [|lia]. exfalso.
      assert (v <= nth i s 0); [|lia]. destruct (Nat.eq_dec i (lo + m)) as [->|]; [unfold v; lia|].
      apply (sorted_nth s Hs). lia.
  - destruct (Z.ltb_spec v key) as [Hlt|Heq].
    + change (-1 =? 0) with false. change (-1 <? 0) with true. cbv iota. rewrite IH by lia. split; intros (i & Hi & He); exists i; (split; [|exact He]).
      * lia.
      * destruct (le_lt_dec (lo + m) i) as [Hi'|]; [|lia]. exfalso.
        assert (nth i s 0 <= v); [|lia]. destruct (Nat.eq_dec i (lo + m)) as [->|]; [unfold v; lia|].
        apply (sorted_nth s Hs). lia.
    + cbn. split; [|reflexivity]. intros _. exists (lo + m)%nat. split; [lia|]. fold v. lia.
Qed.
Lemma sorted_weak s : StronglySorted (fun x y => y < x) s -> StronglySorted (fun x y => y <= x) s.
Proof. induction 1 as [|a l Hs IH Hf]; constructor; [exact IH|]. eapply Forall_impl; [|exact Hf]. cbn. lia. Qed.
Lemma is_object_weak s z a : StronglySorted (fun x y => y <= x) s -> is_object (s ++ z) (length s) a = true <-> In a s.
Proof.
  intros Hs. unfold is_object. rewrite (bsearch_iff s z a Hs) by lia. split.
  - intros (i & Hi & <-). apply nth_In. lia.
  - intros H. destruct (In_nth s a 0 H) as (i & Hi & He). exists i. split; [lia|exact He].
Qed.
Lemma is_object_iff s z a : StronglySorted (fun x y => y < x) s -> is_object (s ++ z) (length s) a = true <-> In a s.
Proof. intros Hs. apply is_object_weak, sorted_weak, Hs. Qed.

(** ** Sweeping *)
Definition swept (h h' : heap) (entries : list Z) : Prop :=
  forall a, h' a = if in_dec Z.eq_dec a entries then
      match h a with Some o => if reachable o then Some (set_mark false o) else None | None => None end else h a.

Lemma sweep_ok entries : forall h fs done, NoDup entries -> (forall a, In a entries -> is_obj h a) ->
  exists h', gfold sweep_one entries (h, fs, done) =
    GOk (h', fs ++ flat_map (fun a => match h a with Some o => if reachable o then [] else owned o ++ [a] | None => [] end) entries,
         done ++ map (fun a => match h a with Some o => if reachable o then a else 0 | None => 0 end) entries) /\ swept h h' entries.
Proof.
  induction entries as [|a l IH]; intros h fs done Hnd Hobj.
  - exists h. cbn. rewrite !app_nil_r. split; [reflexivity|]. intros x. reflexivity.
  - inversion Hnd as [|? ? Hna Hnd']; subst. assert (Ha : is_obj h a) by (apply Hobj; left; reflexivity).
    destruct (h a) as [o|] eqn:Ho; [|contradiction (Ha Ho)].
    set (o' := if reachable o then Some (set_mark false o) else None).
    assert (Hx : forall x, In x l -> upd h a o' x = h x) by (intros x Hx; apply upd_other; intros ->; contradiction).
    destruct (IH (upd h a o') (if reachable o then fs else fs ++ owned o ++ [a]) (done ++ [if reachable o then a else 0]) Hnd') as (h' & Hf & Hsw).
    { intros x Hin. unfold is_obj. rewrite Hx by exact Hin. apply Hobj. right. exact Hin. }
    exists h'. split.
    + cbn [gfold]. unfold sweep_one at 1. rewrite Ho.
      assert (E1 : flat_map (fun a0 => match upd h a o' a0 with Some o0 => if reachable o0 then [] else owned o0 ++ [a0] | None => [] end) l =
        flat_map (fun a0 => match h a0 with Some o0 => if reachable o0 then [] else owned o0 ++ [a0] | None => [] end) l)
        by (rewrite !flat_map_concat_map; f_equal; apply map_ext_in; intros x Hin; rewrite Hx by exact Hin; reflexivity).
      assert (E2 : map (fun a0 => match upd h a o' a0 with Some o0 => if reachable o0 then a0 else 0 | None => 0 end) l =
        map (fun a0 => match h a0 with Some o0 => if reachable o0 then a0 else 0 | None => 0 end) l)
        by (apply map_ext_in; intros x Hin; rewrite Hx by exact Hin; reflexivity).
      rewrite E1, E2 in Hf. cbn [flat_map map]. rewrite Ho. unfold o' in *. destruct (reachable o); cbn [dealloc_object gbind]; rewrite Hf;
        rewrite <- !app_assoc; reflexivity.
    + intros x. rewrite (Hsw x). destruct (Z.eq_dec x a) as [->|Hxa].
      * destruct (in_dec Z.eq_dec a l); [contradiction|]. destruct (in_dec Z.eq_dec a (a :: l)) as [_|Hn]; [|exfalso; apply Hn; left; reflexivity].
        rewrite upd_same, Ho. reflexivity.
      * rewrite upd_other by exact Hxa. destruct (in_dec Z.eq_dec x l) as [Hi|Hi], (in_dec Z.eq_dec x (a :: l)) as [Hj|Hj]; auto.
        -- exfalso. apply Hj. right. assumption.
        -- destruct Hj as [->|]; contradiction.
Qed.

(** ** A collection *)
Lemma marks_stack fuel s z words h h' : StronglySorted (fun x y => y < x) s -> Forall (fun a => 0 < a) s ->
  mark_stack fuel (s ++ z) (length s) words h = GOk h' -> marks_all h h' (filter (fun a => if in_dec Z.eq_dec a s then true else false) words).
Proof.
  intros Hs Hpos. unfold mark_stack. revert h. induction words as [|a l IH]; intros h H; cbn in H |- *; [injection H as <-; apply marks_all_nil|].
  unfold mark_potential_root at 1 in H. destruct (is_object (s ++ z) (length s) a) eqn:Hi.
  - apply is_object_iff in Hi; [|exact Hs]. destruct (in_dec Z.eq_dec a s); [|contradiction].
    destruct (mark_object fuel h a) as [h1| |] eqn:H1; try discriminate. cbn in H. eapply marks_all_cons; [|apply IH, H].
    apply (gfold_marks (mark_object fuel) (marks_object fuel) [a]). cbn. rewrite H1. reflexivity.
  - destruct (in_dec Z.eq_dec a s) as [Hin|]; [apply (is_object_iff s z a Hs) in Hin; congruence|]. apply IH, H.
Qed.
Lemma marks_static fuel s z words h h' : StronglySorted (fun x y => y < x) s -> Forall (fun a => 0 < a) s ->
  mark_static fuel (s ++ z) (length s) words h = GOk h' -> marks_all h h' (filter (fun a => if in_dec Z.eq_dec a s then true else false) words).
Proof.
  intros Hs Hpos. unfold mark_static. revert h. induction words as [|a l IH]; intros h H; cbn in H |- *; [injection H as <-; apply marks_all_nil|].
  destruct (is_object (s ++ z) (length s) a) eqn:Hi.
  - apply is_object_iff in Hi; [|exact Hs]. destruct (in_dec Z.eq_dec a s); [|contradiction].
    destruct (mark_tree (mark_object fuel) h a) as [h1| |] eqn:H1; try discriminate. cbn in H. eapply marks_all_cons; [|apply IH, H].
    apply (gfold_marks (mark_tree (mark_object fuel)) (marks_tree _ (marks_object fuel)) [a]). cbn. rewrite H1. reflexivity.
  - destruct (in_dec Z.eq_dec a s) as [Hin|]; [apply (is_object_iff s z a Hs) in Hin; congruence|]. apply IH, H.
Qed.

(** The invariant of the collector. *)
Definition wf (g : gcstate) : Prop :=
  (forall a, ~ marked (objects g) a) /\
  match allocs g with
  | Some l => array_ok (objects g) l (alloc_ptr g)
  | None => alloc_ptr g = O /\ forall a, objects g a = None
  end.

Lemma nonzero_app a b : nonzero (a ++ b) = nonzero a ++ nonzero b.
Proof. apply filter_app. Qed.

Lemma collect_ok fuel words statics g g' : wf g -> ~ full g -> (exists a, is_obj (objects g) a) ->
  collect fuel words statics g = GOk g' ->
  collected words statics g g' /\ wf g' /\ gc_inhibited g' = gc_inhibited g /\ collect_counter g' = collect_counter g /\ ~ full g'.
Proof.
  intros (Hm & Harr) Hnf (a0 & Ha0) H. unfold collect in H. destruct (allocs g) as [l|] eqn:Hl; [|discriminate].
  assert (Hlt : (alloc_ptr g < length l)%nat).
  { destruct (le_lt_dec (length l) (alloc_ptr g)); [|lia]. exfalso. apply Hnf. exists l. auto. }
  destruct (fixup_ok (objects g) l (alloc_ptr g) Harr Hlt) as (s & z & Hfix & Hs & Hnd & Hobj & Hpos & Hz & Hlen & Hsp).
  { pose proof (proj1 (proj1 (proj2 (proj2 Harr)) a0) Ha0) as Hin. intros He. rewrite He in Hin. contradiction. }
  rewrite Hfix in H. cbn [gbind] in H.
  destruct (mark_stack fuel (s ++ z) (length s) words (objects g)) as [h1| |] eqn:H1; try discriminate. cbn [gbind] in H.
  destruct (mark_static fuel (s ++ z) (length s) statics h1) as [h2| |] eqn:H2; try discriminate. cbn [gbind] in H.
  apply marks_stack in H1 as (A1 & B1); [|assumption..]. apply marks_static in H2 as (A2 & B2); [|assumption..].
  assert (Hsame : same_objects (objects g) h2) by (eapply same_trans; eauto).
  assert (Hlive : forall x, marked h2 x <-> live (objects g) words statics x).
  { intros x. rewrite B2, B1. unfold live.
    assert (Hf : forall r m, In r (filter (fun a => if in_dec Z.eq_dec a s then true else false) m) <-> In r m /\ is_obj (objects g) r).
    { intros r m. rewrite filter_In, Hobj. destruct (in_dec Z.eq_dec r s); intuition congruence. }
    split.
    - intros [[Hx|(r & Hr & _ & Hx)]|(r & Hr & _ & Hx)].
      + contradiction (Hm x Hx).
      + apply Hf in Hr as [Hr Ho]. exists r. rewrite in_app_iff. auto.
      + apply Hf in Hr as [Hr Ho]. exists r. rewrite in_app_iff. split; [auto|]. split; [auto|]. eapply same_reaches; [apply same_sym, A1|exact Hx].
    - intros (r & Hr & Ho & Hx). assert (Hr0 : r <> 0).
      { intros ->. apply Hobj in Ho. rewrite Forall_forall in Hpos. specialize (Hpos 0 Ho). lia. }
      apply in_app_iff in Hr as [Hr|Hr].
      + left. right. exists r. split; [apply Hf; auto|]. auto.
      + right. exists r. split; [apply Hf; auto|]. split; [exact Hr0|]. eapply same_reaches; [exact A1|exact Hx]. }
  rewrite firstn_app, Nat.sub_diag, firstn_all, skipn_app, skipn_all, Nat.sub_diag in H. cbn [firstn skipn app] in H. rewrite app_nil_r in H.
  destruct (sweep_ok s h2 (frees g) [] Hnd) as (h' & Hsw & Hspec).
  { intros a Ha. apply (same_is_obj _ _ a Hsame). apply Hobj, Ha. }
  unfold sweep in H. rewrite Hsw in H. cbn [gbind app] in H. injection H as <-. cbn [objects frees gc_inhibited collect_counter].
  assert (Hobj2 : forall a o, objects g a = Some o -> exists o2, h2 a = Some o2 /\ file o2 = file o /\ kids o2 = kids o /\ owned o2 = owned o /\
     (reachable o2 = true <-> live (objects g) words statics a) /\ In a s).
  { intros a o Ho. pose proof (Hsame a) as Hsa. rewrite Ho in Hsa. destruct (h2 a) as [o2|] eqn:Ho2; [|contradiction].
    exists o2. destruct Hsa as (X & Y & Z). split; [reflexivity|]. split; [exact X|]. split; [exact Y|]. split; [exact Z|]. split.
    - rewrite <- Hlive. split; [intros Hr; exists o2; auto|]. intros (o3 & Ho3 & Hr). rewrite Ho2 in Ho3. injection Ho3 as <-. exact Hr.
    - apply Hobj. unfold is_obj. rewrite Ho. discriminate. }
  assert (Hnone : forall a, objects g a = None -> h' a = None).
  { intros a Ho. pose proof (Hsame a) as Hsa. rewrite Ho in Hsa. destruct (h2 a) eqn:Ho2; [contradiction|].
    rewrite (Hspec a), Ho2. destruct (in_dec Z.eq_dec a s); reflexivity. }
  assert (Hkeep : forall a o, objects g a = Some o -> live (objects g) words statics a -> h' a = Some (mkobj false (file o) (kids o) (owned o))).
  { intros a o Ho Hl'. destruct (Hobj2 a o Ho) as (o2 & E & F1 & F2 & F3 & F4 & F5). rewrite (Hspec a), E.
    destruct (in_dec Z.eq_dec a s); [|contradiction]. rewrite (proj2 F4 Hl'). unfold set_mark. rewrite F1, F2, F3. reflexivity. }
  assert (Hdrop : forall a o, objects g a = Some o -> ~ live (objects g) words statics a -> h' a = None).
  { intros a o Ho Hl'. destruct (Hobj2 a o Ho) as (o2 & E & F1 & F2 & F3 & F4 & F5). rewrite (Hspec a), E.
    destruct (in_dec Z.eq_dec a s); [|contradiction]. destruct (reachable o2); [tauto|reflexivity]. }
  assert (Hdec : forall a, is_obj (objects g) a -> live (objects g) words statics a \/ ~ live (objects g) words statics a).
  { intros a Ha. unfold is_obj in Ha. destruct (objects g a) as [o|] eqn:Ho; [|contradiction Ha; reflexivity].
    destruct (Hobj2 a o Ho) as (o2 & E & F1 & F2 & F3 & F4 & F5). destruct (reachable o2); [left; tauto|right; intros Hx; apply F4 in Hx; discriminate]. }
  split; [|split; [|split; [reflexivity|split; [reflexivity|]]]].
  3:{ intros (l' & Hl' & Hfull). cbn in Hl', Hfull. injection Hl' as <-. rewrite app_length, map_length in Hfull. rewrite app_length in Hlen. lia. }
  - split.
    + cbn [objects]. intros a. split; [intros Hl' o Ho; apply Hkeep; assumption|]. intros [Hl'|Hn].
      * destruct (objects g a) as [o|] eqn:Ho; [eapply Hdrop; eauto|apply Hnone, Ho].
      * apply Hnone, Hn.
    + exists (filter (fun a => match h2 a with Some o => negb (reachable o) | None => false end) s). split; [apply NoDup_filter, Hnd|]. split.
      * intros a. rewrite filter_In, Hobj. split.
        -- intros [Ha Hr]. split; [exact Ha|]. rewrite <- Hlive. intros (o & Ho & Hr'). rewrite Ho, Hr' in Hr. discriminate.
        -- intros [Ha Hr]. split; [exact Ha|]. apply Hobj in Ha. apply (same_is_obj _ _ a Hsame) in Ha. unfold is_obj in Ha.
           destruct (h2 a) as [o|] eqn:Ho; [|contradiction Ha; reflexivity]. destruct (reachable o) eqn:Hro; [|reflexivity].
           exfalso. apply Hr, Hlive. exists o. auto.
      * cbn [frees]. f_equal. assert (Hall : forall a, In a s -> exists o o2, objects g a = Some o /\ h2 a = Some o2 /\ owned o2 = owned o).
        { intros a Ha. apply Hobj in Ha. unfold is_obj in Ha. destruct (objects g a) as [o|] eqn:Ho; [|contradiction Ha; reflexivity].
          destruct (Hobj2 a o Ho) as (o2 & E & _ & _ & F & _ & _). exists o, o2. auto. }
        clear - Hall. induction s as [|a m IH]; [reflexivity|]. cbn [flat_map filter].
        destruct (Hall a (or_introl eq_refl)) as (o & o2 & Ho & E & F). rewrite E.
        rewrite IH by (intros b Hb; apply Hall; right; exact Hb).
        destruct (reachable o2); cbn [negb flat_map app]; [reflexivity|]. rewrite Ho, F. reflexivity.
  - assert (Hnz : nonzero (map (fun a => match h2 a with Some o => if reachable o then a else 0 | None => 0 end) s) =
      filter (fun a => match h2 a with Some o => reachable o | None => false end) s).
    { clear - Hpos. induction s as [|a m IH]; [reflexivity|]. inversion Hpos as [|? ? Ha Hm]; subst. unfold nonzero in IH |- *. cbn [map filter].
      rewrite (IH Hm). destruct (h2 a) as [o|]; [|reflexivity]. destruct (reachable o); [|reflexivity].
      destruct (Z.eqb_spec a 0); [lia|reflexivity]. }
    split; cbn [objects allocs alloc_ptr].
    + intros a (o & Ho & Hr). rewrite (Hspec a) in Ho. destruct (h2 a) as [o2|] eqn:Ho2; [|destruct (in_dec Z.eq_dec a s); discriminate].
      destruct (in_dec Z.eq_dec a s) as [Hin|Hin].
      * destruct (reachable o2); [injection Ho as <-; discriminate|discriminate].
      * apply Hin, Hobj. apply (same_is_obj _ _ a Hsame). unfold is_obj. rewrite Ho2. discriminate.
    + set (entries := map (fun a => match h2 a with Some o => if reachable o then a else 0 | None => 0 end) s) in *.
      assert (He : length entries = length s) by (unfold entries; apply map_length).
      unfold array_ok. rewrite <- He at 1. rewrite firstn_app, skipn_app. rewrite <- He.
      rewrite firstn_all, skipn_all, Nat.sub_diag. cbn [firstn skipn app]. rewrite app_nil_r, Hnz.
      split; [rewrite <- Hlen in Hlt; rewrite app_length in Hlt |- *; lia|]. split; [apply NoDup_filter, Hnd|]. split; [|split; [|exact Hz]].
      * intros a. rewrite filter_In. unfold is_obj. rewrite (Hspec a). destruct (in_dec Z.eq_dec a s) as [Hin|Hin].
        -- destruct (h2 a) as [o|]; [|split; [congruence|intros [_ H]; discriminate]].
           destruct (reachable o); split; try tauto; try congruence. intros [_ H]. discriminate.
        -- split; [|tauto]. intros H. exfalso. apply Hin, Hobj. apply (same_is_obj _ _ a Hsame). exact H.
      * unfold entries. apply Forall_forall. intros a Ha. apply in_map_iff in Ha as (b & <- & Hb). rewrite Forall_forall in Hpos. specialize (Hpos b Hb).
        destruct (h2 b) as [o|]; [destruct (reachable o)|]; lia.
Qed.

(** ** Runs of the program *)
Lemma set_nth_split n a : forall l, (n < length l)%nat -> set_nth n a l = firstn n l ++ a :: skipn (S n) l.
Proof. induction n as [|n IH]; intros [|b l] H; cbn in *; try lia; [reflexivity|]. f_equal. apply IH. lia. Qed.
Lemma skipn_S_Forall (P : Z -> Prop) n : forall l, Forall P (skipn n l) -> Forall P (skipn (S n) l).
Proof. induction n as [|n IH]; intros [|b l] H; cbn in *; auto. inversion H; assumption. Qed.

(** Tracking one more object keeps the array in order. *)
Lemma track_ok h l ptr a : array_ok h l ptr -> (ptr < length l)%nat -> 0 < a -> h a = None ->
  array_ok (upd h a (Some (mkobj false 0 [] []))) (set_nth ptr a l) (S ptr).
Proof.
  intros (Hle & Hnd & Hobj & Hpos & Hz) Hlt Ha Hfresh. rewrite set_nth_split by exact Hlt.
  assert (Hf : length (firstn ptr l) = ptr) by (apply firstn_length_le; lia). unfold array_ok.
  assert (H1 : firstn (S ptr) (firstn ptr l ++ a :: skipn (S ptr) l) = firstn ptr l ++ [a]).
  { rewrite firstn_app, Hf, firstn_all2 by (rewrite Hf; lia). replace (S ptr - ptr)%nat with 1%nat by lia. reflexivity. }
  assert (H2 : skipn (S ptr) (firstn ptr l ++ a :: skipn (S ptr) l) = skipn (S ptr) l).
  { rewrite skipn_app, Hf, skipn_all2 by (rewrite Hf; lia). replace (S ptr - ptr)%nat with 1%nat by lia. reflexivity. }
  rewrite H1, H2, nonzero_app. assert (Hna : nonzero [a] = [a]) by (unfold nonzero; cbn; destruct (Z.eqb_spec a 0); [lia|reflexivity]). rewrite Hna.
  assert (Hnot : ~ In a (nonzero (firstn ptr l))) by (intros H; apply Hobj in H; contradiction).
  split; [rewrite app_length, Hf; cbn [length]; rewrite skipn_length; lia|]. split; [|split; [|split]].
  - apply (Permutation_NoDup (l := a :: nonzero (firstn ptr l))); [apply Permutation_cons_append|]. constructor; assumption.
  - intros x. rewrite in_app_iff, <- Hobj. unfold is_obj. destruct (Z.eq_dec x a) as [->|Hx].
    + rewrite upd_same. split; [intros _; right; left; reflexivity|discriminate].
    + rewrite upd_other by exact Hx. split; [auto|]. intros [H|[H|[]]]; [exact H|congruence].
  - apply Forall_app. split; [exact Hpos|]. constructor; [lia|constructor].
  - apply skipn_S_Forall, Hz.
Qed.

Lemma extend_zero garbage l : (forall n, garbage n = 0) -> exists k, extend_allocs garbage l = l ++ repeat 0 k /\ k = length l.
Proof.
  intros Hg. unfold extend_allocs. exists (length l / 8 + (length l - length l / 8))%nat. split.
  - f_equal. rewrite repeat_app. f_equal. generalize (length l / 8)%nat at 1. generalize (length l - length l / 8)%nat.
    intros n. induction n as [|n IH]; intros m; cbn; [reflexivity|]. rewrite Hg, IH. reflexivity.
  - pose proof (Nat.div_le_upper_bound (length l) 8 (length l)). lia.
Qed.

Lemma track_inv garbage a g : wf g -> 0 < a -> objects g a = None -> (full g -> forall n, garbage n = 0) ->
  wf (track_new_alloc garbage a (mkgc (gc_inhibited g) (alloc_ptr g) (allocs g) (collect_counter g)
                (upd (objects g) a (Some (mkobj false 0 [] []))) (frees g))).
Proof.
  intros (Hm & Harr) Ha Hfresh Hg. split.
  { cbn. intros x (o & Ho & Hr). destruct (Z.eq_dec x a) as [->|Hx].
    - rewrite upd_same in Ho. injection Ho as <-. discriminate.
    - rewrite upd_other in Ho by exact Hx. apply (Hm x). exists o. auto. }
  unfold track_new_alloc. cbn [allocs alloc_ptr objects].
  assert (H0 : array_ok (objects g) (match allocs g with Some l => l | None => repeat 0 initial_size end) (alloc_ptr g)).
  { destruct (allocs g) as [l|]; [exact Harr|]. destruct Harr as [-> Hn]. unfold array_ok. cbn [firstn skipn].
    split; [rewrite repeat_length; unfold initial_size; lia|]. split; [constructor|]. split; [intros x; unfold is_obj; rewrite Hn; split; [congruence|contradiction]|].
    split; [constructor|]. apply Forall_forall. intros x Hx. apply repeat_spec in Hx. exact Hx. }
  set (l := match allocs g with Some l => l | None => repeat 0 initial_size end) in *.
  destruct (Nat.leb_spec (length l) (alloc_ptr g)) as [Hfull|Hroom].
  - assert (Hfu : full g).
    { unfold l in Hfull. destruct (allocs g) as [l'|] eqn:Hl; [exists l'; auto|]. exfalso. destruct Harr as [Hz _]. rewrite Hz, repeat_length in Hfull.
      unfold initial_size in Hfull. lia. }
    destruct (extend_zero garbage l (Hg Hfu)) as (k & -> & Hk). apply track_ok; [|rewrite app_length, repeat_length|exact Ha|exact Hfresh].
    + destruct H0 as (Hle & Hnd & Hobj & Hpos & Hz). assert (Hp : alloc_ptr g = length l) by lia. unfold array_ok. rewrite Hp in *.
      rewrite firstn_app, skipn_app, Nat.sub_diag, firstn_all, skipn_all in *. cbn [firstn skipn app]. rewrite app_nil_r.
      split; [rewrite app_length; lia|]. split; [exact Hnd|]. split; [exact Hobj|]. split; [exact Hpos|].
      apply Forall_forall. intros x Hx. apply repeat_spec in Hx. exact Hx.
    + destruct H0 as (Hle & _). lia.
  - apply track_ok; assumption.
Qed.

(** The invariant between operations. *)
Definition inv (ops : list op) (g : gcstate) : Prop :=
  wf g /\ (allocs g <> None -> exists a, is_obj (objects g) a) /\ (enabled_allocs ops <> O -> allocs g <> None) /\
  gc_inhibited g = depth ops /\ collect_counter g = Z.of_nat (enabled_allocs ops mod 2002).

Lemma due_iff ops g : inv ops g -> due g <-> depth ops = O /\ (S (enabled_allocs ops) mod 2002 = 0)%nat.
Proof.
  intros (_ & _ & _ & Hi & Hc). unfold due. rewrite Hi, Hc. set (n := enabled_allocs ops). clearbody n.
  pose proof (Nat.mod_upper_bound n 2002 ltac:(discriminate)) as Hb. pose proof (Nat.div_mod n 2002 ltac:(discriminate)) as Hd.
  split; intros [Hdep H]; (split; [exact Hdep|]).
  - assert (n mod 2002 = 2001)%nat by lia. replace (S n) with ((S (n / 2002)) * 2002)%nat by lia. apply Nat.mod_mul. discriminate.
  - assert (Hn : (S n mod 2002 = 0)%nat) by exact H. apply Nat.div_exact in Hn; [|discriminate].
    set (k := (n / 2002)%nat) in *. set (m := (S n / 2002)%nat) in *. clearbody k m. set (r := (n mod 2002)%nat) in *. clearbody r. lia.
Qed.

Lemma due_object ops g : inv ops g -> due g -> exists a, is_obj (objects g) a.
Proof.
  intros Hinv Hd. pose proof (proj1 (due_iff ops g Hinv) Hd) as [_ Hm]. destruct Hinv as (_ & H1 & H2 & _). apply H1, H2. intros H0. rewrite H0 in Hm.
  rewrite Nat.mod_small in Hm by lia. discriminate.
Qed.

Lemma maybe_due fuel words statics g : due g ->
  maybe_collect fuel words statics g =
  gbind (collect fuel words statics (mkgc (gc_inhibited g) (alloc_ptr g) (allocs g) (collect_counter g + 1) (objects g) (frees g)))
    (fun g => GOk (mkgc (gc_inhibited g) (alloc_ptr g) (allocs g) 0 (objects g) (frees g))).
Proof.
  intros [H1 H2]. unfold maybe_collect, COLLECT_TREE_ALLOC. rewrite H1. destruct (Z.ltb_spec 2000 (collect_counter g)); [reflexivity|lia].
Qed.
Lemma maybe_not_due fuel words statics g : ~ due g ->
  maybe_collect fuel words statics g =
  GOk (match gc_inhibited g with
       | O => mkgc (gc_inhibited g) (alloc_ptr g) (allocs g) (collect_counter g + 1) (objects g) (frees g)
       | S _ => g
       end).
Proof.
  intros H. unfold maybe_collect, COLLECT_TREE_ALLOC. destruct (gc_inhibited g) eqn:Hi; [|reflexivity].
  destruct (Z.ltb_spec 2000 (collect_counter g)); [|reflexivity]. exfalso. apply H. split; [exact Hi|lia].
Qed.

(** The effect of an allocation. *)
Lemma alloc_ok ops fuel words statics garbage a g g' : inv ops g -> fresh g words statics a -> roomy g garbage ->
  alloc_tree fuel words statics garbage a g = GOk g' ->
  inv (Alloc :: ops) g' /\
  exists h, (forall x, objects g' x = if x =? a then Some (mkobj false 0 [] []) else h x) /\
    (due g -> exists g1, collected words statics g g1 /\ h = objects g1 /\ frees g' = frees g1) /\
    (~ due g -> h = objects g /\ frees g' = frees g).
Proof.
  intros Hinv (Ha & Hfresh) (Hnf & Hg) H. unfold alloc_tree in H.
  assert (Hdd : due g \/ ~ due g).
  { unfold due. destruct (gc_inhibited g); [|right; intros [? _]; discriminate]. destruct (Z_gt_le_dec (collect_counter g) 2000); [left; auto|right; lia]. }
  assert (Hinv' := Hinv). destruct Hinv' as (Hwf & Hex & Hal & Hi & Hc).
  assert (Hsome : forall g0, is_obj (objects (track_new_alloc garbage a (mkgc (gc_inhibited g0) (alloc_ptr g0) (allocs g0) (collect_counter g0)
                (upd (objects g0) a (Some (mkobj false 0 [] []))) (frees g0)))) a).
  { intros g0. cbn. unfold is_obj. rewrite upd_same. discriminate. }
  destruct Hdd as [Hd|Hnd].
  - rewrite (maybe_due _ _ _ _ Hd) in H. set (g0 := mkgc (gc_inhibited g) (alloc_ptr g) (allocs g) (collect_counter g + 1) (objects g) (frees g)) in *.
    destruct (collect fuel words statics g0) as [g1| |] eqn:H1; try discriminate. cbn [gbind] in H. injection H as <-.
    destruct (collect_ok fuel words statics g0 g1) as (Hcol & Hwf1 & Hi1 & Hc1 & Hnf1); [exact Hwf| |exact (due_object ops g Hinv Hd)|exact H1|].
    { intros Hf. apply Hnf. split; [exact Hd|]. destruct Hf as (l & Hl & Hlen). exists l. auto. }
    set (g2 := mkgc (gc_inhibited g1) (alloc_ptr g1) (allocs g1) 0 (objects g1) (frees g1)) in *.
    assert (Hfree : objects g2 a = None).
    { cbn. destruct Hcol as [Hon _]. destruct (Hon a) as [_ Hno]. apply Hno. cbn [objects g0] in *.
      destruct (objects g a) eqn:Hoa; [left; apply Hfresh; unfold is_obj; rewrite Hoa; discriminate|right; reflexivity]. }
    assert (Hwf2 : wf g2) by exact Hwf1.
    assert (Hwf3 := track_inv garbage a g2 Hwf2 Ha Hfree).
    split.
    + split; [apply Hwf3|split; [|split; [|split]]].
      * intros Hfu. exfalso. apply Hnf1. exact Hfu.
      * intros _. exists a. apply (Hsome g2).
      * intros _. cbn. discriminate.
      * cbn. rewrite Hi1. cbn. exact Hi.
      * destruct (proj1 (due_iff ops g Hinv) Hd) as [Hdep Hm]. cbn [enabled_allocs]. rewrite Hdep, Hm. reflexivity.
    + exists (objects g1). split; [reflexivity|]. split; [|contradiction]. intros _. exists g1. split; [|auto]. destruct Hcol as [A B]. split; assumption.
  - rewrite (maybe_not_due _ _ _ _ Hnd) in H. cbn [gbind] in H. injection H as <-.
    set (g2 := match gc_inhibited g with O => _ | S _ => g end).
    assert (Hsame : objects g2 = objects g /\ allocs g2 = allocs g /\ alloc_ptr g2 = alloc_ptr g /\ gc_inhibited g2 = gc_inhibited g /\ frees g2 = frees g).
    { unfold g2. destruct (gc_inhibited g) eqn:He; cbn; rewrite ?He; auto. }
    destruct Hsame as (S1 & S2 & S3 & S4 & S5).
    assert (Hwf2 : wf g2) by (unfold wf; rewrite S1, S2, S3; exact Hwf).
    assert (Hfree : objects g2 a = None).
    { rewrite S1. destruct (objects g a) eqn:Hoa; [|reflexivity]. exfalso. apply Hnd, Hfresh. unfold is_obj. rewrite Hoa. discriminate. }
    assert (Hwf3 := track_inv garbage a g2 Hwf2 Ha Hfree).
    split.
    + split; [apply Hwf3; intros (l & Hl & Hlen); apply Hg; exists l; rewrite <- S2, <- S3; auto|split; [|split; [|split]]].
      * intros _. exists a. apply (Hsome g2).
      * intros _. cbn. discriminate.
      * cbn. rewrite S4. exact Hi.
      * cbn [collect_counter track_new_alloc enabled_allocs]. unfold g2. rewrite Hi. destruct (depth ops) as [|d] eqn:Hdep; [|exact Hc]. cbn [collect_counter].
        rewrite Hc. assert (Hnm : ~ (S (enabled_allocs ops) mod 2002 = 0)%nat) by (intros Hm; apply Hnd, (due_iff ops g Hinv); auto).
        set (n := enabled_allocs ops) in *. clearbody n.
        pose proof (Nat.mod_upper_bound n 2002 ltac:(discriminate)) as Hb. pose proof (Nat.div_mod n 2002 ltac:(discriminate)) as Hdm.
        assert (Hlt : (S (n mod 2002) < 2002)%nat).
        { destruct (Nat.eq_dec (n mod 2002) 2001) as [He|]; [|lia]. exfalso. apply Hnm.
          replace (S n) with ((S (n / 2002)) * 2002)%nat by lia. apply Nat.mod_mul. discriminate. }
        rewrite <- (Nat.mod_unique (S n) 2002 (n / 2002) (S (n mod 2002)) Hlt); lia.
    + exists (objects g). split; [cbn; rewrite S1; reflexivity|]. split; [contradiction|]. intros _. split; [reflexivity|]. cbn. exact S5.
Qed.
