(** Lemmas about the chain model of [ListC]. *)
From Coq Require Import ZArith List Bool Lia Permutation.
From Verif Require Import ListC ListCSpec.
Import ListNotations.
Local Open Scope Z_scope.

Ltac zcase :=
  repeat match goal with
  | |- context [?a =? ?b] => destruct (Z.eqb_spec a b); subst; try congruence
  | H : context [?a =? ?b] |- _ => destruct (Z.eqb_spec a b); subst; try congruence
  end.

Lemma seg_frame : forall h h' l a b,
  (forall x, In x (a :: l) -> nxt h' x = nxt h x) ->
  (forall x, In x (l ++ [b]) -> prv h' x = prv h x) ->
  seg h a l b -> seg h' a l b.
Proof.
  induction l as [|x l IH]; intros a b Hn Hp Hs; simpl in *.
  - destruct Hs as [H1 H2]. split.
    + rewrite Hn; auto.
    + rewrite Hp; auto.
  - destruct Hs as (H1 & H2 & H3). repeat split.
    + rewrite Hn; auto.
    + rewrite Hp; auto.
    + apply IH; auto.
Qed.

Lemma seg_app : forall h l1 x l2 a b,
  seg h a (l1 ++ x :: l2) b <-> seg h a l1 x /\ seg h x l2 b.
Proof.
  induction l1 as [|y l1 IH]; intros; simpl.
  - tauto.
  - rewrite IH. tauto.
Qed.

Lemma seg_nxt : forall h l a b, seg h a l b -> nxt h a = hd b l.
Proof. destruct l; simpl; tauto. Qed.

Lemma last_cons : forall (l : list Z) x d, last (x :: l) d = last l x.
Proof.
  induction l as [|y l IH]; intros; [reflexivity|].
  change (last (x :: y :: l) d) with (last (y :: l) d). rewrite IH.
  destruct l as [|z l]; [reflexivity|]. rewrite <- (IH y x). reflexivity.
Qed.

Lemma seg_prv : forall h l a b, seg h a l b -> prv h b = last l a.
Proof.
  induction l as [|x l IH]; intros a b H; [simpl in *; tauto|].
  rewrite last_cons. destruct H as (_ & _ & H). auto.
Qed.

Lemma NoDup_app_inv : forall (l1 l2 : list Z), NoDup (l1 ++ l2) ->
  NoDup l1 /\ NoDup l2 /\ (forall x, In x l1 -> ~ In x l2).
Proof.
  induction l1 as [|x l1 IH]; intros l2 H; simpl in *.
  - repeat split; auto using NoDup_nil.
  - inversion H; subst. destruct (IH _ H3) as (A & B & C).
    repeat split; auto.
    + constructor; auto. intro; apply H2; apply in_or_app; auto.
    + intros y [->|Hy] Hy2.
      * apply H2; apply in_or_app; auto.
      * eapply C; eauto.
Qed.

(** Updates outside a chain leave it alone. *)
Lemma chain_frame : forall h h' head l,
  (forall x, In x (head :: l) -> nxt h' x = nxt h x) ->
  (forall x, In x (head :: l) -> prv h' x = prv h x) ->
  chain h head l -> chain h' head l.
Proof.
  intros h h' head l Hn Hp [Hd Hs]. split; auto.
  eapply seg_frame; eauto.
  intros x Hx. apply Hp. apply in_app_or in Hx. simpl in *. tauto.
Qed.

Lemma seg_add : forall h a b new,
  nxt h a = b -> prv h b = a -> new <> a -> new <> b ->
  let h' := list_add_between h new a b in
  nxt h' a = new /\ prv h' new = a /\ nxt h' new = b /\ prv h' b = new.
Proof.
  intros. subst h'. unfold list_add_between, set_next, set_prev; simpl. zcase; repeat split; zcase.
Qed.

Lemma list_add_between_nxt : forall h new a b x, x <> new -> x <> a ->
  nxt (list_add_between h new a b) x = nxt h x.
Proof. intros; unfold list_add_between, set_next, set_prev; simpl; zcase. Qed.

Lemma list_add_between_prv : forall h new a b x, x <> new -> x <> b ->
  prv (list_add_between h new a b) x = prv h x.
Proof. intros; unfold list_add_between, set_next, set_prev; simpl; zcase. Qed.

Lemma list_add_chain : forall h head l new,
  chain h head l -> ~ In new (head :: l) ->
  chain (list_add h new head) head (new :: l).
Proof.
  intros h head l new [Hd Hs] Hnew.
  assert (Hne : new <> head) by (intro; subst; apply Hnew; left; auto).
  split.
  { inversion Hd; subst. constructor; [intros [E|E]; [congruence|tauto]|].
    constructor; auto. intro; apply Hnew; right; auto. }
  unfold list_add.
  destruct l as [|x l].
  - cbn [seg] in *. destruct Hs as [E1 E2]. rewrite E1.
    destruct (seg_add h head head new E1 E2 Hne Hne) as (A & B & C & D); auto.
  - simpl in Hs. destruct Hs as (E1 & E2 & E3). rewrite E1.
    assert (new <> x) by (intro; subst; apply Hnew; right; left; auto).
    destruct (seg_add h head x new E1 E2 Hne H) as (A & B & C & D).
    inversion Hd; subst. inversion H3; subst.
    cbn [seg]. repeat split; auto.
    eapply seg_frame; [| |exact E3].
    + intros y Hy. apply list_add_between_nxt.
      * intro; subst. apply Hnew; right; auto.
      * intro; subst. apply H2. auto.
    + intros y Hy. apply in_app_or in Hy. apply list_add_between_prv.
      * intro; subst. apply Hnew. simpl in *. tauto.
      * intro; subst. destruct Hy as [Hy|[Hy|[]]]; [tauto|subst; apply H2; left; auto].
Qed.

Lemma list_add_tail_chain : forall h head l new,
  chain h head l -> ~ In new (head :: l) ->
  chain (list_add_tail h new head) head (l ++ [new]).
Proof.
  intros h head l new [Hd Hs] Hnew.
  assert (Hne : new <> head) by (intro; subst; apply Hnew; left; auto).
  split.
  { apply (Permutation_NoDup (l := head :: new :: l)).
    - constructor. change (new :: l) with ([new] ++ l). apply Permutation_app_comm.
    - inversion Hd; subst. constructor; [intros [E|E]; [congruence|tauto]|].
      constructor; auto. intro; apply Hnew; right; auto. }
  unfold list_add_tail. rewrite (seg_prv _ _ _ _ Hs).
  destruct (exists_last (l := head :: l)) as (l0 & z & E); [discriminate|].
  destruct l0 as [|z0 l0].
  - simpl in E. inversion E; subst. cbn [seg app last] in *. destruct Hs as [E1 E2].
    destruct (seg_add h z z new E1 E2 Hne Hne) as (A & B & C & D); auto.
  - simpl in E. inversion E; subst. rewrite last_last.
    apply seg_app in Hs. destruct Hs as [Hs1 [E1 E2]].
    apply NoDup_cons_iff in Hd. destruct Hd as [H1 H2].
    destruct (NoDup_app_inv _ _ H2) as (N1 & N2 & N3).
    assert (new <> z) by (intro; subst; apply Hnew; right; apply in_or_app; simpl; auto).
    destruct (seg_add h z z0 new E1 E2 H Hne) as (A & B & C & D).
    rewrite <- app_assoc. cbn [app]. apply seg_app. split.
    + eapply seg_frame; [| |exact Hs1].
      * intros y Hy. apply list_add_between_nxt.
        -- intro; subst. apply Hnew. destruct Hy; [left; auto|right; apply in_or_app; auto].
        -- intro; subst. destruct Hy as [Hy|Hy].
           ++ subst. apply H1. apply in_or_app; simpl; auto.
           ++ eapply N3; eauto. simpl; auto.
      * intros y Hy. apply list_add_between_prv.
        -- intro; subst. apply Hnew. right. auto.
        -- intro; subst. apply H1; auto.
    + cbn [seg]. repeat split; auto.
Qed.

Lemma list_del_nxt : forall h e x, x <> e -> x <> prv h e -> nxt (list_del h e) x = nxt h x.
Proof. intros; unfold list_del, set_next, set_prev; simpl; zcase. Qed.

Lemma list_del_prv : forall h e x, e <> prv h e -> x <> e -> x <> nxt h e ->
  prv (list_del h e) x = prv h x.
Proof. intros; unfold list_del, set_next, set_prev; simpl; zcase. Qed.

Lemma list_del_links : forall h e, e <> prv h e -> e <> nxt h e ->
  nxt (list_del h e) (prv h e) = nxt h e /\ prv (list_del h e) (nxt h e) = prv h e /\
  nxt (list_del h e) e = NULLP /\ prv (list_del h e) e = NULLP.
Proof. intros; unfold list_del, set_next, set_prev; simpl; zcase; auto. Qed.

Lemma last_in : forall (l : list Z) d, In (last l d) (d :: l).
Proof.
  induction l as [|x l IH]; intros d; [left; auto|].
  rewrite last_cons. destruct (IH x) as [E|E]; [right; left; auto|right; right; auto].
Qed.

Lemma seg_del : forall h l1 a e l2 b,
  seg h a (l1 ++ e :: l2) b ->
  NoDup (a :: l1 ++ e :: l2) -> (b = a \/ ~ In b (a :: l1 ++ e :: l2)) ->
  seg (list_del h e) a (l1 ++ l2) b.
Proof.
  intros h. induction l1 as [|y l1 IH]; intros a e l2 b Hs Hd Hb.
  - cbn [app seg] in *. destruct Hs as (E1 & E2 & E3).
    apply NoDup_cons_iff in Hd. destruct Hd as [Ha Hd].
    apply NoDup_cons_iff in Hd. destruct Hd as [He Hd].
    assert (Hae : e <> prv h e) by (rewrite E2; intro E; apply Ha; left; auto).
    assert (Heb : e <> b).
    { intro E. destruct Hb as [Hb|Hb]; [apply Ha; left; congruence|].
      apply Hb. right; left; auto. }
    destruct l2 as [|z l2]; cbn [seg] in *.
    + destruct E3 as [E3 E4].
      destruct (list_del_links h e Hae) as (A & B & _); [congruence|].
      rewrite E2, E3 in *. auto.
    + destruct E3 as (E3 & E4 & E5).
      assert (Hez : e <> z) by (intro E; apply He; left; auto).
      destruct (list_del_links h e Hae) as (A & B & _); [congruence|].
      rewrite E2, E3 in *. split; [auto|]. split; [auto|].
      apply NoDup_cons_iff in Hd. destruct Hd as [Hz Hd].
      eapply seg_frame; [| |exact E5].
      * intros x Hx. apply list_del_nxt; intro Ex; subst x.
        -- auto.
        -- apply Ha. rewrite E2 in Hx. right. auto.
      * intros x Hx. apply in_app_or in Hx. apply list_del_prv; [congruence| |].
        -- intro Ex; subst x. destruct Hx as [Hx|[Hx|[]]]; [apply He; right; auto|congruence].
        -- rewrite E3. intro Ex; subst x. destruct Hx as [Hx|[Hx|[]]]; [auto|].
           destruct Hb as [Hb|Hb]; [apply Ha; right; left; congruence|].
           apply Hb. right; right; left; auto.
  - cbn [app seg] in Hs. destruct Hs as (E1 & E2 & E3).
    cbn [app] in Hd. apply NoDup_cons_iff in Hd. destruct Hd as [Ha Hd].
    pose proof E3 as E3'. apply seg_app in E3'. destruct E3' as [S1 S2].
    pose proof (seg_prv _ _ _ _ S1) as Pe.
    pose proof (seg_nxt _ _ _ _ S2) as Ne.
    pose proof (last_in l1 y) as Hin. rewrite <- Pe in Hin.
    assert (Hape : a <> prv h e).
    { intro E. rewrite <- E in Hin. apply Ha. destruct Hin as [E'|Hin]; [left; auto|].
      right. apply in_or_app; auto. }
    assert (Hae : a <> e).
    { intro E; apply Ha. right. apply in_or_app; right; left; auto. }
    pose proof Hd as Hd'. change (y :: l1 ++ e :: l2) with ((y :: l1) ++ e :: l2) in Hd'.
    destruct (NoDup_app_inv _ _ Hd') as (_ & N2 & N3).
    assert (Hee : e <> prv h e).
    { intro E. rewrite <- E in Hin. apply (N3 e Hin). left; auto. }
    cbn [seg app]. split; [rewrite list_del_nxt; auto|]. split.
    { rewrite list_del_prv; auto.
      - intro E. apply (N3 y); [left; auto|left; auto].
      - rewrite Ne. intro E. destruct l2 as [|w l2]; cbn [hd] in E.
        + destruct Hb as [Hb|Hb]; [apply Ha; left; congruence|].
          apply Hb. right; left; auto.
        + apply (N3 y); [left; auto|right; left; auto]. }
    apply IH; auto.
    right. destruct Hb as [Hb|Hb].
    + rewrite Hb. exact Ha.
    + intro Hi. apply Hb. right. exact Hi.
Qed.

Lemma list_del_chain : forall h head l1 e l2,
  chain h head (l1 ++ e :: l2) ->
  chain (list_del h e) head (l1 ++ l2) /\
  nxt (list_del h e) e = NULLP /\ prv (list_del h e) e = NULLP.
Proof.
  intros h head l1 e l2 [Hd Hs]. split; [split|].
  - change (head :: l1 ++ l2) with ((head :: l1) ++ l2).
    eapply NoDup_remove_1. exact Hd.
  - apply seg_del; auto.
  - unfold list_del, set_next, set_prev; simpl. zcase; auto.
Qed.

(** The neighbours of a chain element are in the chain. *)
Lemma chain_prv_in : forall h head l e, chain h head l -> In e l -> In (prv h e) (head :: l).
Proof.
  intros h head l e [Hd Hs] Hin.
  destruct (in_split _ _ Hin) as (l1 & l2 & ->).
  apply seg_app in Hs. destruct Hs as [Hs _].
  rewrite (seg_prv _ _ _ _ Hs).
  destruct l1; [left; auto|].
  right. apply in_or_app. left.
  destruct (exists_last (l := z :: l1)) as (q & w & Q); [discriminate|].
  rewrite Q, last_last. apply in_or_app; simpl; auto.
Qed.

Lemma chain_nxt_in : forall h head l e, chain h head l -> In e l -> In (nxt h e) (head :: l).
Proof.
  intros h head l e [Hd Hs] Hin.
  destruct (in_split _ _ Hin) as (l1 & l2 & ->).
  apply seg_app in Hs. destruct Hs as [_ Hs].
  rewrite (seg_nxt _ _ _ _ Hs).
  destruct l2; simpl; [auto|]. right. apply in_or_app. simpl. auto.
Qed.

Lemma chain_head_prv_in : forall h head l, chain h head l -> In (prv h head) (head :: l).
Proof.
  intros h head l [Hd Hs]. rewrite (seg_prv _ _ _ _ Hs).
  destruct l; [left; auto|].
  right. destruct (exists_last (l := z :: l)) as (q & w & Q); [discriminate|].
  rewrite Q, last_last. apply in_or_app; simpl; auto.
Qed.

Lemma chain_head_nxt_in : forall h head l, chain h head l -> In (nxt h head) (head :: l).
Proof.
  intros h head l [Hd Hs]. rewrite (seg_nxt _ _ _ _ Hs). destruct l; simpl; auto.
Qed.

(** Traversals. *)
Lemma walk_seg : forall h head l a fuel,
  ~ In head l -> seg h a l head -> (length l <= fuel)%nat ->
  walk fuel h (nxt h a) head = Some l.
Proof.
  induction l as [|x l IH]; intros a fuel Hni Hs Hf; simpl in Hs.
  - destruct Hs as [-> _]. destruct fuel; simpl; rewrite Z.eqb_refl; auto.
  - destruct Hs as (-> & _ & Hs).
    destruct fuel as [|fuel]; simpl in Hf; [lia|].
    cbn [walk]. destruct (Z.eqb_spec x head).
    + subst. exfalso; apply Hni; left; auto.
    + rewrite (IH x fuel); auto; [|lia]. intro; apply Hni; right; auto.
Qed.

Lemma for_each_chain : forall h head l fuel,
  chain h head l -> (length l <= fuel)%nat -> list_for_each fuel h head = Some l.
Proof.
  intros h head l fuel [Hd Hs] Hf. apply walk_seg; auto.
  inversion Hd; auto.
Qed.

Lemma seg_snoc : forall h l x a b, seg h a (l ++ [x]) b -> seg h a l x /\ nxt h x = b /\ prv h b = x.
Proof. intros h l x a b H. apply seg_app in H. simpl in H. tauto. Qed.

Lemma walk_back_seg : forall h head l b fuel,
  ~ In head l -> seg h head l b -> (length l <= fuel)%nat ->
  walk_back fuel h (prv h b) head = Some (rev l).
Proof.
  intros h head l. induction l as [|x l IH] using rev_ind; intros b fuel Hni Hs Hf.
  - destruct Hs as [_ ->]. destruct fuel; simpl; rewrite Z.eqb_refl; auto.
  - apply seg_snoc in Hs. destruct Hs as (Hs & _ & ->).
    rewrite app_length in Hf; simpl in Hf.
    destruct fuel as [|fuel]; [lia|].
    cbn [walk_back]. destruct (Z.eqb_spec x head).
    + subst. exfalso; apply Hni. apply in_or_app; simpl; auto.
    + rewrite (IH x fuel); auto; [|intro; apply Hni; apply in_or_app; auto|lia].
      rewrite rev_app_distr. reflexivity.
Qed.

(** Splicing with [tree_splice_chains]. *)
Lemma list_add_tail_frame : forall h head l new h2 l2,
  chain h head l -> chain h h2 l2 ->
  (forall x, In x (head :: l) -> ~ In x (h2 :: l2)) -> ~ In new (h2 :: l2) ->
  chain (list_add_tail h new head) h2 l2.
Proof.
  intros h head l new h2 l2 Hc H2 Hdis Hnew.
  pose proof (chain_head_prv_in _ _ _ Hc) as Hp.
  eapply chain_frame; [| |exact H2]; intros x Hx; unfold list_add_tail.
  - apply list_add_between_nxt; intro; subst; [auto|]. exact (Hdis _ Hp Hx).
  - apply list_add_between_prv; intro; subst; [auto|]. apply (Hdis head); [left; auto|auto].
Qed.

Lemma list_add_frame : forall h head l new h2 l2,
  chain h head l -> chain h h2 l2 ->
  (forall x, In x (head :: l) -> ~ In x (h2 :: l2)) -> ~ In new (h2 :: l2) ->
  chain (list_add h new head) h2 l2.
Proof.
  intros h head l new h2 l2 Hc H2 Hdis Hnew.
  pose proof (chain_head_nxt_in _ _ _ Hc) as Hp.
  eapply chain_frame; [| |exact H2]; intros x Hx; unfold list_add.
  - apply list_add_between_nxt; intro; subst; [auto|]. apply (Hdis head); [left; auto|auto].
  - apply list_add_between_prv; intro; subst; [auto|]. exact (Hdis _ Hp Hx).
Qed.

Lemma list_del_frame : forall h head l e h2 l2,
  chain h head l -> In e l -> chain h h2 l2 ->
  (forall x, In x (head :: l) -> ~ In x (h2 :: l2)) ->
  chain (list_del h e) h2 l2.
Proof.
  intros h head l e h2 l2 Hc Hin H2 Hdis.
  pose proof (chain_prv_in _ _ _ _ Hc Hin) as Hp.
  pose proof (chain_nxt_in _ _ _ _ Hc Hin) as Hn.
  assert (He : e <> prv h e).
  { destruct Hc as [Hd Hs]. destruct (in_split _ _ Hin) as (l1 & l2' & ->).
    apply seg_app in Hs. destruct Hs as [Hs _]. rewrite (seg_prv _ _ _ _ Hs).
    intro E. change (head :: l1 ++ e :: l2') with ((head :: l1) ++ e :: l2') in Hd.
    destruct (NoDup_app_inv _ _ Hd) as (_ & _ & N). apply (N e); [|left; auto].
    destruct l1; [left; auto|]. right.
    destruct (exists_last (l := z :: l1)) as (q & w & Q); [discriminate|].
    rewrite Q, last_last in E. rewrite Q, E. apply in_or_app; simpl; auto. }
  eapply chain_frame; [| |exact H2]; intros x Hx.
  - apply list_del_nxt; intro; subst.
    + eapply Hdis; [right; eauto|auto].
    + exact (Hdis _ Hp Hx).
  - apply list_del_prv; auto; intro; subst.
    + eapply Hdis; [right; eauto|auto].
    + exact (Hdis _ Hn Hx).
Qed.

Lemma splice_loop_ok : forall ls fuel h pos dest src ld,
  chain h dest ld -> chain h src ls ->
  (forall x, In x (dest :: ld) -> ~ In x (src :: ls)) ->
  (length ls <= fuel)%nat -> pos = nxt h src ->
  exists h', splice_loop fuel h pos (nxt h pos) dest src = Some h' /\
    chain h' dest (ld ++ ls) /\ chain h' src [] /\
    (forall h2 l2, chain h h2 l2 ->
       (forall x, In x (h2 :: l2) -> ~ In x (dest :: ld) /\ ~ In x (src :: ls)) ->
       chain h' h2 l2).
Proof.
  induction ls as [|e ls IH]; intros fuel h pos dest src ld Hd Hs Hdis Hf ->.
  - exists h. rewrite app_nil_r.
    pose proof Hs as [Hn [Hs1 Hs2]]. rewrite Hs1.
    split; [|split; [exact Hd|split; [exact Hs|auto]]].
    destruct fuel; simpl; rewrite Z.eqb_refl; reflexivity.
  - destruct fuel as [|fuel]; simpl in Hf; [lia|].
    assert (Hnx : nxt h src = e) by (destruct Hs as [_ Hs]; simpl in Hs; tauto).
    rewrite Hnx. cbn [splice_loop].
    assert (Hes : e <> src).
    { intro E. destruct Hs as [Hn _]. apply NoDup_cons_iff in Hn. destruct Hn as [Hn _].
      apply Hn; left; auto. }
    destruct (Z.eqb_spec e src); [congruence|].
    set (h1 := list_del h e). set (h2 := tree_chain h1 e dest).
    pose proof (list_del_chain h src [] e ls Hs) as (Hs1 & _ & _). simpl in Hs1.
    assert (Hd1 : chain h1 dest ld).
    { eapply list_del_frame with (head := src) (l := e :: ls); eauto; [left; auto|].
      intros x Hx Hx2. eapply Hdis; eauto. }
    assert (Hed : ~ In e (dest :: ld)).
    { intro H. eapply Hdis; eauto. right; left; auto. }
    assert (Hd2 : chain h2 dest (ld ++ [e])) by (apply list_add_tail_chain; auto).
    assert (Hel : ~ In e (src :: ls)).
    { destruct Hs as [Hn _]. apply NoDup_cons_iff in Hn. destruct Hn as [_ Hn].
      apply NoDup_cons_iff in Hn. intros [E|E]; [congruence|tauto]. }
    assert (Hs2 : chain h2 src ls).
    { eapply list_add_tail_frame; eauto.
      intros x Hx Hx2. eapply Hdis; eauto. simpl in *; tauto. }
    (* the saved successor is the first element of what remains *)
    assert (Hnn : nxt h e = nxt h2 src).
    { destruct Hs as [_ Hs0]. simpl in Hs0. destruct Hs0 as (_ & _ & Hs0).
      rewrite (seg_nxt _ _ _ _ Hs0). destruct Hs2 as [_ Hs2]. rewrite (seg_nxt _ _ _ _ Hs2). auto. }
    rewrite Hnn.
    destruct (IH fuel h2 (nxt h2 src) dest src (ld ++ [e])) as (h' & R1 & R2 & R3 & R4); auto.
    { intros x Hx Hx2. simpl in Hx. rewrite in_app_iff in Hx. simpl in Hx.
      destruct Hx as [Hx|[Hx|[Hx|[]]]].
      - eapply Hdis; [left; eauto|]. destruct Hx2; [left; auto|right; right; auto].
      - eapply Hdis; [right; eauto|]. destruct Hx2; [left; auto|right; right; auto].
      - subst. auto. }
    { lia. }
    exists h'. rewrite <- app_assoc in R2. split; [exact R1|]. split; [exact R2|]. split; [exact R3|].
    intros k l2 Hk Hdk. apply R4.
    + eapply list_add_tail_frame with (l := ld); eauto.
      * eapply list_del_frame with (head := src) (l := e :: ls); eauto; [left; auto|].
        intros x Hx Hx2. destruct (Hdk x Hx2) as [_ Q]. auto.
      * intros x Hx Hx2. destruct (Hdk x Hx2) as [Q _]. auto.
      * intro Hx. destruct (Hdk e Hx) as [_ Q]. apply Q. right; left; auto.
    + intros x Hx. destruct (Hdk x Hx) as [Q1 Q2]. split.
      * intro Hx2. simpl in Hx2. rewrite in_app_iff in Hx2. simpl in Hx2.
        destruct Hx2 as [Hx2|[Hx2|[Hx2|[]]]].
        -- apply Q1; left; auto.
        -- apply Q1; right; auto.
        -- subst. apply Q2; right; left; auto.
      * intro Hx2. apply Q2. destruct Hx2; [left; auto|right; right; auto].
Qed.

(** [list_splice] makes the destination unreachable from itself. *)
Lemma walk_in_set : forall (S : Z -> Prop) h head,
  ~ S head -> (forall x, S x -> S (nxt h x)) ->
  forall fuel pos, S pos -> walk fuel h pos head = None.
Proof.
  intros S h head Hh Hc. induction fuel as [|fuel IH]; intros pos Hp; simpl;
  (destruct (Z.eqb_spec pos head); [subst; tauto|]); auto.
  rewrite IH; auto.
Qed.

Lemma list_splice_diverges : forall h from fl head hl fuel,
  chain h from fl -> chain h head hl ->
  (forall x, In x (from :: fl) -> ~ In x (head :: hl)) ->
  list_for_each fuel (list_splice h from head) head = None.
Proof.
  intros h from fl head hl fuel Hf Hh Hdis.
  assert (Hfl : ~ In from fl) by (destruct Hf as [Hn _]; inversion Hn; auto).
  assert (Hhf : ~ In head fl) by (intro; eapply Hdis; [right; eauto|left; auto]).
  destruct Hf as [Hn Hs].
  pose proof (seg_nxt _ _ _ _ Hs) as E1.
  pose proof (seg_prv _ _ _ _ Hs) as E2.
  assert (Hfh : from <> head) by (intro E; apply (Hdis from); left; auto).
  destruct fl as [|e fl].
  { cbn [hd last] in E1, E2.
    assert (E3 : nxt (list_splice h from head) head = from)
      by (unfold list_splice, set_next, set_prev; simpl; rewrite E1, E2; zcase).
    assert (E4 : nxt (list_splice h from head) from = from)
      by (unfold list_splice, set_next, set_prev; simpl; rewrite E1, E2; zcase).
    unfold list_for_each. rewrite E3.
    apply walk_in_set with (S := fun x => x = from); auto.
    intros x ->. auto. }
  simpl in E1. rewrite last_cons in E2.
  destruct (exists_last (l := e :: fl)) as (q & z & Q); [discriminate|].
  assert (Hz : last fl e = z).
  { rewrite <- last_cons with (d := from). rewrite Q, last_last. auto. }
  assert (Hzin : In z (e :: fl)) by (rewrite Q; apply in_or_app; simpl; auto).
  assert (Hzh : head <> z) by (intro; subst; auto).
  assert (Hnh : nxt (list_splice h from head) head = e).
  { unfold list_splice, set_next, set_prev. simpl. rewrite E1, E2, Hz. zcase. }
  unfold list_for_each. rewrite Hnh.
  apply walk_in_set with (S := fun x => In x (e :: fl)); [auto| |left; auto].
  intros x Hx.
  assert (Hxh : x <> head) by (intro; subst; auto).
  destruct (Z.eq_dec x z) as [->|Hxz].
  - assert (nxt (list_splice h from head) z = e) as ->; [|left; auto].
    unfold list_splice, set_next, set_prev. simpl. rewrite E1, E2, Hz. zcase.
  - assert (nxt (list_splice h from head) x = nxt h x) as ->.
    { unfold list_splice, set_next, set_prev. simpl. rewrite E1, E2, Hz. zcase. }
    destruct (in_split _ _ Hx) as (l1 & l2 & El).
    rewrite El in Hs. apply seg_app in Hs. destruct Hs as [_ Hs].
    rewrite (seg_nxt _ _ _ _ Hs). destruct l2 as [|w l2].
    + exfalso. apply Hxz. rewrite Q in El. apply app_inj_tail in El. symmetry. tauto.
    + cbn [hd]. rewrite El. apply in_or_app. simpl. auto.
Qed.

(** ---- refinement: sequences of operations ---- *)

Lemma cells_app : forall a1 a2, cells (a1 ++ a2) = cells a1 ++ cells a2.
Proof. intros; unfold cells; apply flat_map_app. Qed.

Lemma heads_in_cells : forall a hd, In hd (map fst a) -> In hd (cells a).
Proof.
  induction a as [|[h l] a IH]; simpl; intros hd H; [tauto|].
  destruct H as [H|H]; [auto|]. right. apply in_or_app. right. auto.
Qed.

Lemma entry_in_cells : forall a hd l x, In (hd, l) a -> In x (hd :: l) -> In x (cells a).
Proof.
  intros a hd l x H Hx. unfold cells. apply in_flat_map. exists (hd, l). auto.
Qed.

Lemma upd_none : forall a hd f, ~ In hd (map fst a) -> upd a hd f = a.
Proof.
  induction a as [|[h l] a IH]; simpl; intros hd f H; [auto|].
  destruct (Z.eqb_spec h hd); [tauto|]. rewrite IH; auto.
Qed.

Lemma upd_app : forall a1 a2 hd f, upd (a1 ++ a2) hd f = upd a1 hd f ++ upd a2 hd f.
Proof. intros; apply map_app. Qed.

Lemma lookup_split : forall a1 hd l a2, ~ In hd (map fst a1) ->
  lookup (a1 ++ (hd, l) :: a2) hd = l.
Proof.
  unfold lookup. induction a1 as [|[h k] a1 IH]; simpl; intros hd l a2 H.
  - rewrite Z.eqb_refl; auto.
  - destruct (Z.eqb_spec h hd); [tauto|]. apply IH. tauto.
Qed.

Lemma split_head : forall a hd, NoDup (cells a) -> In hd (map fst a) ->
  exists a1 l a2, a = a1 ++ (hd, l) :: a2 /\ ~ In hd (map fst a1) /\ ~ In hd (map fst a2).
Proof.
  induction a as [|[h l] a IH]; intros hd Hnd Hin; [destruct Hin|].
  cbn [cells flat_map fst snd app] in Hnd. apply NoDup_cons_iff in Hnd. destruct Hnd as [Hh Hnd].
  destruct (Z.eq_dec h hd) as [->|Hne].
  - exists [], l, a. repeat split; auto. intro H. apply Hh. apply in_or_app. right.
    apply heads_in_cells; auto.
  - destruct Hin as [E|Hin]; [simpl in E; congruence|].
    apply NoDup_app_inv in Hnd. destruct Hnd as (_ & Hnd & _).
    destruct (IH hd Hnd Hin) as (a1 & l' & a2 & -> & H1 & H2).
    exists ((h, l) :: a1), l', a2. repeat split; auto.
    intros [E|E]; [simpl in E; congruence|auto].
Qed.

Lemma upd_split : forall a1 hd l a2 f, ~ In hd (map fst a1) -> ~ In hd (map fst a2) ->
  upd (a1 ++ (hd, l) :: a2) hd f = a1 ++ (hd, f l) :: a2.
Proof.
  intros. rewrite upd_app. simpl. rewrite Z.eqb_refl. rewrite !upd_none; auto.
Qed.

(** Distinct entries have disjoint cells. *)
Lemma cells_disjoint : forall a1 hd l a2 h2 l2 x,
  NoDup (cells (a1 ++ (hd, l) :: a2)) ->
  In (h2, l2) (a1 ++ a2) -> In x (hd :: l) -> ~ In x (h2 :: l2).
Proof.
  intros a1 hd l a2 h2 l2 x Hnd Hin Hx Hx2.
  rewrite cells_app in Hnd. apply NoDup_app_inv in Hnd. destruct Hnd as (_ & N2 & N3).
  change (cells ((hd, l) :: a2)) with ((hd :: l) ++ cells a2) in N2, N3.
  apply NoDup_app_inv in N2. destruct N2 as (_ & _ & N4).
  apply in_app_or in Hin. destruct Hin as [Hin|Hin].
  - apply (N3 x); [eapply entry_in_cells; eauto|]. apply in_or_app; auto.
  - apply (N4 x Hx). eapply entry_in_cells; eauto.
Qed.

Lemma cells_mid_perm : forall a1 hd l a2,
  Permutation (cells (a1 ++ (hd, l) :: a2)) ((hd :: l) ++ cells (a1 ++ a2)).
Proof.
  intros. rewrite !cells_app. change (cells ((hd, l) :: a2)) with ((hd :: l) ++ cells a2).
  rewrite !app_assoc. apply Permutation_app_tail. apply Permutation_app_comm.
Qed.

Lemma perm_nodup : forall (l l' : list Z), Permutation l l' -> NoDup l -> NoDup l'.
Proof. intros. eapply Permutation_NoDup; eauto. Qed.

Lemma represents_upd : forall h h' a1 hd l l' a2,
  represents h (a1 ++ (hd, l) :: a2) ->
  chain h' hd l' ->
  NoDup (cells (a1 ++ (hd, l') :: a2)) ->
  (forall h2 l2, In (h2, l2) (a1 ++ a2) -> chain h h2 l2 -> chain h' h2 l2) ->
  represents h' (a1 ++ (hd, l') :: a2).
Proof.
  intros h h' a1 hd l l' a2 [Hnd Hch] Hc Hnd' Hfr. split; auto.
  intros h2 l2 Hin. apply in_app_or in Hin. simpl in Hin.
  destruct Hin as [Hin|[Hin|Hin]].
  - apply Hfr; [apply in_or_app; auto|]. apply Hch. apply in_or_app; auto.
  - inversion Hin; subst. auto.
  - apply Hfr; [apply in_or_app; auto|]. apply Hch. apply in_or_app; simpl; auto.
Qed.

Lemma remove_notin : forall e (l : list Z), ~ In e l -> remove Z.eq_dec e l = l.
Proof.
  induction l as [|x l IH]; simpl; intros H; auto.
  destruct (Z.eq_dec e x); [subst; tauto|]. rewrite IH; auto.
Qed.

Lemma remove_split : forall e (l1 l2 : list Z), ~ In e l1 -> ~ In e l2 ->
  remove Z.eq_dec e (l1 ++ e :: l2) = l1 ++ l2.
Proof.
  intros. rewrite remove_app. simpl. destruct (Z.eq_dec e e); [|congruence].
  rewrite !remove_notin; auto.
Qed.

Lemma map_remove_notin : forall e a, ~ In e (cells a) ->
  map (fun c : Z * list Z => (fst c, remove Z.eq_dec e (snd c))) a = a.
Proof.
  induction a as [|[h l] a IH]; intros H; auto.
  change (cells ((h, l) :: a)) with ((h :: l) ++ cells a) in H. rewrite in_app_iff in H.
  simpl. rewrite IH by tauto. rewrite remove_notin; auto. intro; apply H; left; right; auto.
Qed.

Lemma NoDup_app_intro : forall (l1 l2 : list Z), NoDup l1 -> NoDup l2 ->
  (forall x, In x l1 -> ~ In x l2) -> NoDup (l1 ++ l2).
Proof.
  induction l1 as [|x l1 IH]; intros l2 H1 H2 H; simpl; auto.
  apply NoDup_cons_iff in H1. destruct H1 as [Hx H1]. constructor.
  - rewrite in_app_iff. intros [E|E]; [auto|]. apply (H x); [left; auto|auto].
  - apply IH; auto. intros y Hy. apply H. right; auto.
Qed.

Lemma step_add_gen : forall h a new hd (add : heap -> Z -> Z -> heap) (ins : list Z -> list Z),
  (forall l, Permutation (ins l) (new :: l)) ->
  (forall h hd l, chain h hd l -> ~ In new (hd :: l) -> chain (add h new hd) hd (ins l)) ->
  (forall h hd l h2 l2, chain h hd l -> chain h h2 l2 ->
     (forall x, In x (hd :: l) -> ~ In x (h2 :: l2)) -> ~ In new (h2 :: l2) ->
     chain (add h new hd) h2 l2) ->
  represents h a -> ~ In new (cells a) -> In hd (map fst a) ->
  represents (add h new hd) (upd a hd ins).
Proof.
  intros h a new hd add ins Hperm Hadd Hfr Hr Hnew Hhd.
  pose proof Hr as [Hnd Hch].
  destruct (split_head a hd Hnd Hhd) as (a1 & l & a2 & -> & H1 & H2).
  rewrite upd_split; auto.
  assert (Hc : chain h hd l) by (apply Hch; apply in_or_app; simpl; auto).
  eapply represents_upd; eauto.
  - apply Hadd; auto. intro Hx. apply Hnew. eapply entry_in_cells; [|exact Hx].
    apply in_or_app; simpl; auto.
  - eapply perm_nodup; [symmetry; apply cells_mid_perm|].
    apply (perm_nodup ((new :: hd :: l) ++ cells (a1 ++ a2))).
    + apply Permutation_app_tail. apply perm_trans with (hd :: new :: l); [apply perm_swap|].
      constructor. symmetry. auto.
    + simpl. constructor.
      * intro Hx. apply Hnew. eapply Permutation_in; [symmetry; apply cells_mid_perm|]. exact Hx.
      * change (hd :: l ++ cells (a1 ++ a2)) with ((hd :: l) ++ cells (a1 ++ a2)).
        eapply perm_nodup; [apply cells_mid_perm|]. auto.
  - intros h2 l2 Hin Hc2. eapply Hfr; eauto.
    + intros x. eapply cells_disjoint; eauto.
    + intro Hx. apply Hnew. eapply entry_in_cells; [|exact Hx].
      apply in_app_or in Hin. apply in_or_app. simpl. tauto.
Qed.

Lemma step_init : forall h a p,
  represents h a -> ~ In p (cells a) -> represents (INIT_LIST h p) ((p, []) :: a).
Proof.
  intros h a p [Hnd Hch] Hp. split.
  - simpl. constructor; auto.
  - intros hd l [E|Hin].
    + inversion E; subst. split; [constructor; [simpl; tauto|constructor]|].
      unfold INIT_LIST, set_next, set_prev; simpl. rewrite Z.eqb_refl. auto.
    + eapply chain_frame; [| |apply Hch; exact Hin];
      intros x Hx; unfold INIT_LIST, set_next, set_prev; simpl;
      (destruct (Z.eqb_spec x p); [subst; exfalso; apply Hp; eapply entry_in_cells; eauto|auto]).
Qed.

Lemma step_del : forall h a e,
  represents h a -> (exists hd l, In (hd, l) a /\ In e l) ->
  represents (list_del h e) (astep a (OpDel e)).
Proof.
  intros h a e Hr (hd & l & Hin & He).
  pose proof Hr as [Hnd Hch].
  destruct (in_split _ _ Hin) as (a1 & a2 & ->).
  destruct (in_split _ _ He) as (l1 & l2 & ->).
  pose proof (perm_nodup _ _ (cells_mid_perm _ _ _ _) Hnd) as Hp.
  apply NoDup_app_inv in Hp. destruct Hp as (P1 & P2 & P3).
  assert (Hed : ~ In e (cells (a1 ++ a2))).
  { apply P3. right. auto. }
  rewrite cells_app, in_app_iff in Hed.
  unfold astep. rewrite map_app. cbn [map fst snd].
  rewrite !map_remove_notin by tauto.
  pose proof P1 as P1'. change (hd :: l1 ++ e :: l2) with ((hd :: l1) ++ e :: l2) in P1'.
  pose proof (NoDup_remove_1 _ _ _ P1') as Q1. pose proof (NoDup_remove_2 _ _ _ P1') as Q2.
  simpl in Q2. rewrite in_app_iff in Q2.
  rewrite remove_split by tauto.
  eapply represents_upd; eauto.
  - apply list_del_chain. apply Hch. apply in_or_app; simpl; auto.
  - eapply perm_nodup; [symmetry; apply cells_mid_perm|].
    apply NoDup_app_intro; auto.
    intros x Hx. apply P3. simpl in *. rewrite in_app_iff in *. simpl. tauto.
  - intros h2 l2' Hin2 Hc2. eapply list_del_frame with (head := hd); eauto.
    intros x Hx. eapply cells_disjoint; eauto.
Qed.

Lemma step_splice : forall fuel h a d s,
  represents h a -> d <> s -> In d (map fst a) -> In s (map fst a) ->
  (length (cells a) <= fuel)%nat ->
  exists h', tree_splice_chains fuel h d s = Some h' /\
             represents h' (astep a (OpSplice d s)).
Proof.
  intros fuel h a d s Hr Hds Hd Hs Hf.
  pose proof Hr as [Hnd Hch].
  destruct (split_head a d Hnd Hd) as (a1 & ld & a2 & E & H1 & H2).
  assert (Hcd : chain h d ld) by (apply Hch; rewrite E; apply in_or_app; simpl; auto).
  destruct (split_head a s Hnd Hs) as (b1 & ls & b2 & E' & H3 & H4).
  assert (Hcs : chain h s ls) by (apply Hch; rewrite E'; apply in_or_app; simpl; auto).
  assert (Hls : lookup a s = ls) by (rewrite E'; apply lookup_split; auto).
  assert (Hsin : In (s, ls) (a1 ++ a2)).
  { assert (In (s, ls) a) by (rewrite E'; apply in_or_app; simpl; auto).
    rewrite E in H. apply in_app_or in H. simpl in H. apply in_or_app.
    destruct H as [H|[H|H]]; auto. congruence. }
  assert (Hlen : (length ls <= fuel)%nat).
  { rewrite E' in Hf. rewrite (Permutation_length (cells_mid_perm _ _ _ _)) in Hf.
    simpl in Hf. rewrite app_length in Hf. lia. }
  rewrite E in Hnd.
  assert (Hdis : forall x, In x (d :: ld) -> ~ In x (s :: ls)).
  { intros x. eapply cells_disjoint; eauto. }
  unfold tree_splice_chains.
  destruct (splice_loop_ok ls fuel h (nxt h s) d s ld Hcd Hcs Hdis Hlen eq_refl)
    as (h' & R1 & R2 & R3 & R4).
  exists h'. split; [exact R1|].
  unfold astep. rewrite Hls, E. rewrite upd_split; auto.
  (* split again at s *)
  destruct (in_split _ _ Hsin) as (c1 & c2 & Ec).
  assert (Hperm0 : Permutation a ((d, ld) :: (s, ls) :: c1 ++ c2)).
  { rewrite E. apply perm_trans with ((d, ld) :: a1 ++ a2).
    - symmetry. apply Permutation_middle.
    - constructor. rewrite Ec. symmetry. apply Permutation_middle. }
  assert (Hcells : forall x y : astate, Permutation x y -> Permutation (cells x) (cells y)).
  { intros x y Hp. unfold cells. apply Permutation_flat_map. exact Hp. }
  assert (Hnd0 : NoDup (cells ((d, ld) :: (s, ls) :: c1 ++ c2))).
  { eapply perm_nodup; [apply Hcells; exact Hperm0|]. rewrite E. exact Hnd. }
  assert (Hsout : ~ In s (map fst (c1 ++ c2))).
  { intro Hx. apply heads_in_cells in Hx.
    change (cells ((d, ld) :: (s, ls) :: c1 ++ c2))
      with ((d :: ld) ++ (s :: ls) ++ cells (c1 ++ c2)) in Hnd0.
    apply NoDup_app_inv in Hnd0. destruct Hnd0 as (_ & Hnd0 & _).
    apply NoDup_app_inv in Hnd0. destruct Hnd0 as (_ & _ & Hnd0).
    apply (Hnd0 s); [left; auto|auto]. }
  assert (Hperm1 : Permutation (upd (a1 ++ (d, ld ++ ls) :: a2) s (fun _ => []))
                     ((d, ld ++ ls) :: (s, []) :: c1 ++ c2)).
  { apply perm_trans with (upd ((d, ld ++ ls) :: (s, ls) :: c1 ++ c2) s (fun _ => [])).
    - unfold upd. apply Permutation_map.
      apply perm_trans with ((d, ld ++ ls) :: a1 ++ a2).
      + symmetry. apply Permutation_middle.
      + constructor. rewrite Ec. symmetry. apply Permutation_middle.
    - simpl. destruct (Z.eqb_spec d s); [congruence|]. rewrite Z.eqb_refl.
      fold (upd (c1 ++ c2) s (fun _ => [])). rewrite upd_none; auto. }
  assert (Hnd1 : NoDup (cells ((d, ld ++ ls) :: (s, []) :: c1 ++ c2))).
  { change (NoDup ((d :: ld ++ ls) ++ [s] ++ cells (c1 ++ c2))).
    eapply perm_nodup; [|exact Hnd0].
    change (Permutation ((d :: ld) ++ (s :: ls) ++ cells (c1 ++ c2))
                        ((d :: ld ++ ls) ++ [s] ++ cells (c1 ++ c2))).
    change (d :: ld ++ ls) with ((d :: ld) ++ ls). rewrite <- app_assoc.
    apply Permutation_app_head. rewrite !app_assoc. apply Permutation_app_tail.
    change (s :: ls) with ([s] ++ ls). apply Permutation_app_comm. }
  split.
  - eapply perm_nodup; [symmetry; apply Hcells; exact Hperm1|exact Hnd1].
  - intros h2 l2 Hin. apply (Permutation_in _ Hperm1) in Hin.
    destruct Hin as [Hin|[Hin|Hin]].
    + inversion Hin; subst. auto.
    + inversion Hin; subst. auto.
    + apply R4.
      * apply Hch. apply (Permutation_in _ (Permutation_sym Hperm0)). right; right; auto.
      * change (cells ((d, ld) :: (s, ls) :: c1 ++ c2))
          with ((d :: ld) ++ (s :: ls) ++ cells (c1 ++ c2)) in Hnd0.
        apply NoDup_app_inv in Hnd0. destruct Hnd0 as (_ & N2 & N3).
        apply NoDup_app_inv in N2. destruct N2 as (_ & _ & N4).
        intros x Hx. pose proof (entry_in_cells _ _ _ _ Hin Hx) as Hx'. split; intro Hy.
        -- apply (N3 x Hy). apply in_or_app; auto.
        -- apply (N4 x Hy Hx').
Qed.

Lemma step_refines : forall fuel h a o,
  represents h a -> legal a o -> (length (cells a) <= fuel)%nat ->
  exists h', cstep fuel h o = Some h' /\ represents h' (astep a o).
Proof.
  intros fuel h a [p|n hd|n hd|e|d s] Hr Hl Hf; simpl in Hl; cbn [cstep].
  - eexists; split; [reflexivity|]. apply step_init; auto.
  - eexists; split; [reflexivity|]. destruct Hl.
    apply (step_add_gen h a n hd list_add (fun l => n :: l)); auto.
    + intros; apply list_add_chain; auto.
    + intros; eapply list_add_frame; eauto.
  - eexists; split; [reflexivity|]. destruct Hl.
    apply (step_add_gen h a n hd list_add_tail (fun l => l ++ [n])); auto.
    + intro l. symmetry. apply Permutation_cons_append.
    + intros; apply list_add_tail_chain; auto.
    + intros; eapply list_add_tail_frame; eauto.
  - eexists; split; [reflexivity|]. apply step_del; auto.
  - destruct Hl as (H1 & H2 & H3). apply step_splice; auto.
Qed.

Lemma cells_upd_length : forall a hd f n,
  NoDup (cells a) -> In hd (map fst a) ->
  (forall l, length (f l) <= n + length l)%nat ->
  (length (cells (upd a hd f)) <= n + length (cells a))%nat.
Proof.
  intros a hd f n Hnd Hin Hf.
  destruct (split_head a hd Hnd Hin) as (a1 & l & a2 & -> & H1 & H2).
  rewrite upd_split; auto.
  rewrite (Permutation_length (cells_mid_perm a1 hd l a2)).
  rewrite (Permutation_length (cells_mid_perm a1 hd (f l) a2)).
  simpl. rewrite !app_length. specialize (Hf l). lia.
Qed.

Lemma cells_step_length : forall h a o, represents h a -> legal a o ->
  (length (cells (astep a o)) <= S (length (cells a)))%nat.
Proof.
  intros h a [p|n hd|n hd|e|d s] [Hnd Hch] Hl.
  - simpl. lia.
  - destruct Hl. apply (cells_upd_length a hd _ 1); auto.
  - destruct Hl. apply (cells_upd_length a hd _ 1); auto. intros; rewrite app_length; simpl; lia.
  - simpl. clear. apply Nat.le_le_succ_r. induction a as [|[h l] a IH]; simpl; [lia|].
    rewrite !app_length. pose proof (remove_length_le Z.eq_dec l e). lia.
  - destruct Hl as (H1 & H2 & H3).
    assert (Hr : represents h a) by (split; auto).
    (* the cells of the result are a permutation *)
    simpl. destruct (split_head a d Hnd H2) as (a1 & ld & a2 & E & Q1 & Q2).
    assert (G : forall x, (length (lookup a s) + length (cells (upd x s (fun _ => [])))
      <= length (lookup a s) + length (cells x))%nat).
    { intro x. apply Nat.add_le_mono_l. clear. induction x as [|[h l] x IH]; simpl; [lia|].
      destruct (h =? s); simpl; rewrite ?app_length; lia. }
    assert (K : forall x, In s (map fst x) -> NoDup (cells x) ->
      (length (lookup x s) + length (cells (upd x s (fun _ => []))) <= length (cells x))%nat).
    { intros x Hx Hndx. destruct (split_head x s Hndx Hx) as (c1 & l & c2 & -> & P1 & P2).
      rewrite lookup_split, upd_split; auto.
      rewrite (Permutation_length (cells_mid_perm c1 s l c2)).
      rewrite (Permutation_length (cells_mid_perm c1 s [] c2)). simpl. rewrite app_length. lia. }
    (* swap the two updates *)
    assert (W : upd (upd a d (fun l => l ++ lookup a s)) s (fun _ => []) =
                upd (upd a s (fun _ => [])) d (fun l => l ++ lookup a s)).
    { unfold upd. rewrite !map_map. apply map_ext. intros [k l]. simpl.
      destruct (Z.eqb_spec k d), (Z.eqb_spec k s); subst; simpl; rewrite ?Z.eqb_refl; try congruence;
      repeat match goal with |- context [?x =? ?y] => destruct (Z.eqb_spec x y); try congruence end. }
    rewrite W.
    specialize (K a H3 Hnd).
    assert (Hnd' : NoDup (cells (upd a s (fun _ => [])))).
    { destruct (split_head a s Hnd H3) as (c1 & l & c2 & -> & P1 & P2). rewrite upd_split; auto.
      eapply perm_nodup; [symmetry; apply cells_mid_perm|].
      pose proof (perm_nodup _ _ (cells_mid_perm _ _ _ _) Hnd) as Hp.
      simpl in Hp. apply NoDup_cons_iff in Hp. destruct Hp as [A B].
      apply NoDup_app_inv in B. simpl. constructor; [|tauto].
      intro; apply A; apply in_or_app; auto. }
    assert (Hd' : In d (map fst (upd a s (fun _ => [])))).
    { unfold upd. rewrite map_map. apply in_map_iff in H2. destruct H2 as ([k l] & Ek & Hk).
      apply in_map_iff. exists (k, l). split; auto. simpl in *. destruct (k =? s); auto. }
    pose proof (cells_upd_length (upd a s (fun _ => [])) d (fun l => l ++ lookup a s)
                  (length (lookup a s)) Hnd' Hd') as L.
    assert (forall l : list Z, (length (l ++ lookup a s) <= length (lookup a s) + length l)%nat)
      by (intro; rewrite app_length; lia).
    specialize (L H). lia.
Qed.

Lemma run_refines : forall os fuel h a,
  represents h a -> all_legal a os -> (length (cells a) + length os <= fuel)%nat ->
  exists h', crun fuel h os = Some h' /\ represents h' (arun a os).
Proof.
  induction os as [|o os IH]; intros fuel h a Hr Hl Hf; simpl in *.
  - eauto.
  - destruct Hl as [Hl Hls].
    destruct (step_refines fuel h a o Hr Hl) as (h1 & E1 & R1); [lia|].
    rewrite E1. apply IH; auto.
    pose proof (cells_step_length h a o Hr Hl). lia.
Qed.

Lemma list_empty_chain : forall h head l, chain h head l ->
  (list_empty h head = true <-> l = []).
Proof.
  intros h head l [Hd Hs]. unfold list_empty. rewrite (seg_nxt _ _ _ _ Hs).
  destruct l as [|x l]; simpl.
  - rewrite Z.eqb_refl. tauto.
  - destruct (Z.eqb_spec x head); [|split; congruence].
    subst. apply NoDup_cons_iff in Hd. exfalso. apply Hd. left; auto.
Qed.
