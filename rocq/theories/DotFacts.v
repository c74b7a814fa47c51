(** Proofs for C77. *)
From Coq Require Import ZArith List String Ascii Bool Permutation Lia.
From Verif Require Import Lang SpecLang LangFacts Lexer SpecSession SessionFacts CLang Dump SpecDump Dot SpecDot.
Import ListNotations.
Local Open Scope string_scope.
Local Open Scope list_scope.

(** Induction over nodes. *)
Fixpoint size (n : dnode) : nat :=
  match n with mkd _ _ fs => S (list_sum (map (fun f => vsize (snd f)) fs)) end
with vsize (v : dval) : nat := match v with DTree o => osize o | DPrim _ => 0 end
with osize (o : dobj) : nat :=
  match o with DNull => 0 | DChain _ l => list_sum (map size l) | DNode n => size n end.
Lemma sum_le {A} (f : A -> nat) x l : In x l -> f x <= list_sum (map f l).
Proof. induction l as [|y l IH]; intros []; cbn; [subst; lia|]. specialize (IH H). unfold list_sum in IH. lia. Qed.

Lemma node_induction (P : dnode -> Prop) :
  (forall a name fs, (forall x m, In (x, DTree (DNode m)) fs -> P m) -> (forall x c l m, In (x, DTree (DChain c l)) fs -> In m l -> P m) -> P (mkd a name fs)) ->
  forall n, P n.
Proof.
  intros H. assert (K : forall k n, size n < k -> P n).
  { induction k as [|k IH]; intros [a name fs] L; [lia|]. cbn [size] in L. apply H.
    - intros x m Hi. apply IH. apply (sum_le (fun f => vsize (snd f))) in Hi. cbn [snd vsize osize] in Hi. lia.
    - intros x c l m Hi Hm. apply IH. apply (sum_le (fun f => vsize (snd f))) in Hi. apply (sum_le size) in Hm. cbn [snd vsize osize] in Hi. lia. }
  intros n. apply (K (S (size n))). lia.
Qed.

Section Dot.
Variable order : string -> list prop.
Notation dump1 := (tree_dump_dot_1 order).
Notation dump := (tree_dump_dot_ order).
Notation fdot := (field_dot order).

Definition props_out a (fs : list (string * dval)) (l : list prop) : list statement :=
  flat_map (fun p => match map_at (pname p) (map (fun f => (fst f, fdot a (fst f) (snd f))) fs) with Some out => out | None => [] end) l.
Lemma dump1_eq a name fs : dump1 (mkd a name fs) = Object a name :: props_out a fs (order name).
Proof. reflexivity. Qed.
Lemma dump_chain a l : dump (DChain a l) = links a 0 None (map (fun n => (addr n, dump1 n)) l).
Proof. reflexivity. Qed.
Lemma dump_node n : dump (DNode n) = dump1 n.
Proof. reflexivity. Qed.

Lemma out_at a fs x : map_at x (map (fun f => (fst f, fdot a (fst f) (snd f))) fs) = match map_at x fs with Some v => Some (fdot a x v) | None => None end.
Proof.
  unfold map_at. induction fs as [|[y v] fs IH]; [reflexivity|]. cbn [map find fst snd].
  destruct (y =? x)%string eqn:E; [apply String.eqb_eq in E; subst; reflexivity|exact IH].
Qed.
Lemma at_unique {A} (fs : list (string * A)) x v : NoDup (map fst fs) -> In (x, v) fs -> map_at x fs = Some v.
Proof.
  unfold map_at. induction fs as [|[y w] fs IH]; intros N Hi; [contradiction|]. cbn [map fst] in N. inversion N as [|? ? N1 N2]; subst. cbn [find fst].
  destruct Hi as [Hi|Hi].
  - injection Hi as -> ->. rewrite String.eqb_refl. reflexivity.
  - destruct (y =? x)%string eqn:E; [|apply IH; assumption]. apply String.eqb_eq in E. subst. exfalso. apply N1. apply (in_map fst) in Hi. exact Hi.
Qed.

Lemma dump1_in a name fs s : NoDup (map fst fs) -> Permutation (map fst fs) (map pname (order name)) ->
  In s (dump1 (mkd a name fs)) <-> s = Object a name \/ exists x v, In (x, v) fs /\ In s (fdot a x v).
Proof.
  intros N Q. rewrite dump1_eq. cbn [In]. unfold props_out. rewrite in_flat_map. split; intros [H|H]; auto; right.
  - destruct H as (p & Hp & H). rewrite out_at in H. destruct (map_at (pname p) fs) as [v|] eqn:E; [|contradiction].
    exists (pname p), v. split; [apply map_at_in; exact E|exact H].
  - destruct H as (x & v & Hi & H).
    assert (Hx : In x (map pname (order name))) by (apply (Permutation_in _ Q); apply (in_map fst) in Hi; exact Hi).
    apply in_map_iff in Hx. destruct Hx as (p & <- & Hp). exists p. split; [exact Hp|]. rewrite out_at, (at_unique _ _ _ N Hi). exact H.
Qed.

(** What the loop over a chain writes. *)
Definition linked (c : Z) (k : nat) (prev : option Z) (l : list dnode) (s : statement) : Prop :=
  (exists n, In n l /\ In s (dump1 n)) \/
  (exists before n after, l = before ++ n :: after /\ s = Open c (k + List.length before)) \/
  (l <> [] /\ s = Close) \/
  (exists b n after, prev = Some b /\ l = n :: after /\ s = Next b (addr n) c k) \/
  (exists before n m after, l = before ++ n :: m :: after /\ s = Next (addr n) (addr m) c (S (k + List.length before))).
Lemma links_in c s l : forall k prev, In s (links c k prev (map (fun n => (addr n, dump1 n)) l)) <-> linked c k prev l s.
Proof.
  induction l as [|n l IH]; intros k prev.
  - cbn [map links In]. split; [contradiction|]. intros [(n & [] & _)|[(b & n & e & H & _)|[[H _]|[(b & n & e & _ & H & _)|(b & n & m & e & H & _)]]]].
    + destruct b; discriminate H.
    + apply H. reflexivity.
    + discriminate H.
    + destruct b; discriminate H.
  - cbn [map links]. cbn [In]. rewrite in_app_iff. cbn [In]. rewrite in_app_iff, IH. split.
    + intros [<-|[H|[<-|[H|H]]]].
      * right. left. exists [], n, l. rewrite Nat.add_0_r. auto.
      * left. exists n. split; [left; reflexivity|exact H].
      * right. right. left. split; [discriminate|reflexivity].
      * destruct prev as [b|]; [|contradiction]. destruct H as [<-|[]]. right. right. right. left. exists b, n, l. auto.
      * destruct H as [(m & Hm & H)|[(b & m & e & -> & ->)|[[_ ->]|[(b & m & e & Hb & -> & ->)|(b & m & m' & e & -> & ->)]]]].
        -- left. exists m. split; [right; exact Hm|exact H].
        -- right. left. exists (n :: b), m, e. split; [reflexivity|]. cbn [List.length]. f_equal. lia.
        -- right. right. left. split; [discriminate|reflexivity].
        -- injection Hb as <-. right. right. right. right. exists [], n, m, e. split; [reflexivity|]. cbn [List.length]. f_equal. lia.
        -- right. right. right. right. exists (n :: b), m, m', e. split; [reflexivity|]. cbn [List.length]. f_equal. lia.
    + intros [(m & [<-|Hm] & H)|[(b & m & e & H & ->)|[[_ ->]|[(b & m & e & -> & H & ->)|(b & m & m' & e & H & ->)]]]].
      * auto.
      * right. right. right. right. left. exists m. auto.
      * destruct b as [|b0 b]; cbn [app] in H; injection H as <- ->.
        -- left. cbn [List.length]. f_equal. lia.
        -- right. right. right. right. right. left. exists b, m, e. split; [reflexivity|]. cbn [List.length]. f_equal. lia.
      * auto.
      * injection H as <- <-. right. right. right. left. left. reflexivity.
      * right. right. right. right. destruct b as [|b0 b]; cbn [app] in H; injection H as <- ->.
        -- right. right. right. left. exists (addr n), m', e. split; [reflexivity|]. split; [reflexivity|]. cbn [List.length]. f_equal. lia.
        -- right. right. right. right. exists b, m, m', e. split; [reflexivity|]. cbn [List.length]. f_equal. lia.
Qed.
End Dot.

(** What the picture of a part shows, the picture of the whole shows. *)
Lemma drawn_weaken o o' s : (forall n, inside n o -> inside n o') -> (forall c l, chain_inside c l o -> chain_inside c l o') -> drawn o s -> drawn o' s.
Proof. intros H1 H2 D. destruct D; [econstructor 1|econstructor 2|econstructor 3|econstructor 4|econstructor 5|econstructor 6|econstructor 7|econstructor 8|econstructor 9]; eauto. Qed.
Lemma drawn_field a name fs x o s : In (x, DTree o) fs -> drawn o s -> drawn (DNode (mkd a name fs)) s.
Proof. intros Hi. apply drawn_weaken; intros; econstructor; eauto. Qed.
Lemma drawn_member c l n s : In n l -> drawn (DNode n) s -> drawn (DChain c l) s.
Proof. intros Hi. apply drawn_weaken; intros; econstructor; eauto. Qed.

Definition heads (a : Z) (x : string) (o : dobj) (s : statement) : Prop :=
  match o with
  | DNull => False
  | DChain c l => s = First a (first_member c l) x
  | DNode n => s = Edge a (addr n) x
  end.
Definition fdrawn (a : Z) (x : string) (v : dval) (s : statement) : Prop :=
  match v with
  | DTree o => heads a x o s \/ drawn o s
  | DPrim p => s = Value a (dot_text p) \/ s = ValueEdge a x
  end.

Lemma drawn_node a name fs s : drawn (DNode (mkd a name fs)) s <-> s = Object a name \/ exists x v, In (x, v) fs /\ fdrawn a x v s.
Proof.
  assert (I : forall n, inside n (DNode (mkd a name fs)) -> n = mkd a name fs \/ exists x o, In (x, DTree o) fs /\ inside n o).
  { intros n H. inversion H; subst; eauto. }
  assert (C : forall c l, chain_inside c l (DNode (mkd a name fs)) -> exists x o, In (x, DTree o) fs /\ chain_inside c l o).
  { intros c l H. inversion H; subst; eauto. }
  split.
  - intros D. destruct D as [b nm gs H|b nm gs x n H Hi|b nm gs x c n l H Hi|b nm gs x c H Hi|b nm gs x p H Hi|b nm gs x p H Hi|c be n af H|c n l H|c be n m af H];
      try (apply C in H; destruct H as (y & o & Hy & H); right; exists y, (DTree o); split; [exact Hy|]; right; econstructor; exact H);
      (apply I in H; destruct H as [H|(y & o & Hy & H)];
        [injection H as -> -> ->|right; exists y, (DTree o); split; [exact Hy|]; right; first [econstructor; eassumption|econstructor 3; eassumption|econstructor 4; eassumption]]).
    + auto.
    + right. exists x, (DTree (DNode n)). split; [exact Hi|]. left. reflexivity.
    + right. exists x, (DTree (DChain c (n :: l))). split; [exact Hi|]. left. reflexivity.
    + right. exists x, (DTree (DChain c [])). split; [exact Hi|]. left. reflexivity.
    + right. exists x, (DPrim p). split; [exact Hi|]. left. reflexivity.
    + right. exists x, (DPrim p). split; [exact Hi|]. right. reflexivity.
  - intros [->|(x & v & Hi & H)]; [econstructor; constructor|]. destruct v as [o|p].
    + destruct H as [H|H]; [|eapply drawn_field; eauto].
      destruct o as [|c [|n l]|n]; cbn [heads first_member] in H; [contradiction| | |]; subst s.
      * eapply d_first_empty; [constructor|exact Hi].
      * eapply d_first; [constructor|exact Hi].
      * eapply d_edge; [constructor|exact Hi].
    + destruct H as [->| ->]; [eapply d_value|eapply d_value_edge]; try exact Hi; constructor.
Qed.

Lemma drawn_chain c l s : drawn (DChain c l) s <->
  (exists n, In n l /\ drawn (DNode n) s) \/
  (exists before n after, l = before ++ n :: after /\ s = Open c (List.length before)) \/
  (l <> [] /\ s = Close) \/
  (exists before n m after, l = before ++ n :: m :: after /\ s = Next (addr n) (addr m) c (S (List.length before))).
Proof.
  assert (I : forall n, inside n (DChain c l) -> exists m, In m l /\ inside n (DNode m)) by (intros n H; inversion H; subst; eauto).
  assert (C : forall c' l', chain_inside c' l' (DChain c l) -> (c' = c /\ l' = l) \/ exists m, In m l /\ chain_inside c' l' (DNode m)).
  { intros c' l' H. inversion H; subst; eauto. }
  split.
  - intros D. destruct D as [b nm gs H|b nm gs x n H Hi|b nm gs x c0 n k H Hi|b nm gs x c0 H Hi|b nm gs x p H Hi|b nm gs x p H Hi|c0 be n af H|c0 n k H|c0 be n m af H];
      try (apply I in H; destruct H as (y & Hy & H); left; exists y; split; [exact Hy|]; first [econstructor; eassumption|econstructor 3; eassumption|econstructor 4; eassumption]);
      (apply C in H; destruct H as [[-> H]|(y & Hy & H)];
        [subst l|left; exists y; split; [exact Hy|]; econstructor; exact H]).
    + right. left. eauto.
    + right. right. left. split; [discriminate|reflexivity].
    + right. right. right. eauto 8.
  - intros [(n & Hn & H)|[(be & n & af & -> & ->)|[[H ->]|(be & n & m & af & -> & ->)]]].
    + eapply drawn_member; eauto.
    + eapply d_open. constructor.
    + destruct l as [|n k]; [contradiction H; reflexivity|]. eapply d_close. constructor.
    + eapply d_next. constructor.
Qed.

Section Picture.
Variable order : string -> list prop.

Lemma complete_field a name fs x o : complete order (DNode (mkd a name fs)) -> In (x, DTree o) fs -> complete order o.
Proof. intros H Hi b nm gs Hg. apply (H b). econstructor; eauto. Qed.
Lemma complete_member c l n : complete order (DChain c l) -> In n l -> complete order (DNode n).
Proof. intros H Hi b nm gs Hg. apply (H b). econstructor; eauto. Qed.

Lemma chain_picture c l s : (forall n, In n l -> (In s (tree_dump_dot_1 order n) <-> drawn (DNode n) s)) ->
  In s (tree_dump_dot_ order (DChain c l)) <-> drawn (DChain c l) s.
Proof.
  intros H. rewrite dump_chain, links_in, drawn_chain. unfold linked. cbn [Nat.add]. split.
  - intros [(n & Hn & D)|[D|[D|[(b & n & e & D & _)|D]]]]; [|auto|auto|discriminate D|auto]. left. exists n. split; [exact Hn|]. apply (H n Hn). exact D.
  - intros [(n & Hn & D)|[D|[D|D]]]; [|auto|auto|auto 6]. left. exists n. split; [exact Hn|]. apply (H n Hn). exact D.
Qed.

Lemma node_picture n : complete order (DNode n) -> forall s, In s (tree_dump_dot_1 order n) <-> drawn (DNode n) s.
Proof.
  induction n as [a name fs IH1 IH2] using node_induction. intros Hc s.
  destruct (Hc a name fs (in_node _)) as [N Q]. rewrite (dump1_in order a name fs s N Q), drawn_node.
  assert (F : forall x v, In (x, v) fs -> (In s (field_dot order a x v) <-> fdrawn a x v s)).
  { intros x [[|c l|m]|p] Hi; cbn [field_dot fdrawn heads].
    - cbn [tree_dump_dot_ In]. split; [contradiction|]. intros [[]|D]. exfalso.
      destruct D as [b nm gs H|b nm gs y n H _|b nm gs y c n l H _|b nm gs y c H _|b nm gs y p H _|b nm gs y p H _|c be n af H|c n l H|c be n m af H]; inversion H.
    - cbn [In]. assert (K : In s (tree_dump_dot_ order (DChain c l)) <-> drawn (DChain c l) s).
      { apply chain_picture. intros m Hm. apply (IH2 x c l m Hi Hm). eapply complete_member; [|exact Hm]. eapply complete_field; eauto. }
      rewrite K. split; intros [H|H]; auto.
    - cbn [In]. assert (K : In s (tree_dump_dot_1 order m) <-> drawn (DNode m) s) by (apply (IH1 x m Hi); eapply complete_field; eauto).
      rewrite K. split; intros [H|H]; auto.
    - cbn [In]. split; [intros [H|[H|[]]]; auto|intros [H|H]; auto]. }
  split; intros [H|(x & v & Hi & H)]; auto; right; exists x, v; (split; [exact Hi|]); apply (F x v Hi); exact H.
Qed.

Lemma picture o s : complete order o -> (In s (tree_dump_dot order o) <-> drawn o s).
Proof.
  unfold tree_dump_dot. destruct o as [|c l|n]; intros H.
  - cbn [tree_dump_dot_ In]. split; [contradiction|]. intros D.
    destruct D as [b nm gs K|b nm gs y n K _|b nm gs y c n l K _|b nm gs y c K _|b nm gs y p K _|b nm gs y p K _|c be n af K|c n l K|c be n m af K]; inversion K.
  - apply chain_picture. intros n Hn. apply node_picture. eapply complete_member; eauto.
  - rewrite dump_node. apply node_picture. exact H.
Qed.

(** The labels of the values. *)
Lemma label_app a l : forall l', last_label a (l ++ l') = match last_label a l' with Some t => Some t | None => last_label a l end.
Proof.
  induction l as [|s l IH]; intros l'; cbn [app last_label]; [destruct (last_label a l'); reflexivity|].
  rewrite IH. destruct (last_label a l'); reflexivity.
Qed.
Lemma label_none a l : (forall t, ~ In (Value a t) l) -> last_label a l = None.
Proof.
  induction l as [|s l IH]; intros H; [reflexivity|]. cbn [last_label]. rewrite IH by (intros t Ht; apply (H t); right; exact Ht).
  destruct s; try reflexivity. destruct (Z.eqb_spec a a0) as [->|]; [|reflexivity]. exfalso. apply (H label). left. reflexivity.
Qed.
Lemma no_value o a t : (forall n, inside n o -> addr n <> a) -> ~ drawn o (Value a t).
Proof. intros H D. inversion D as [ | | | |b nm gs x p I _| | | | ]; subst. apply (H _ I). reflexivity. Qed.

Lemma value_label a name fs before x p after pv :
  complete order (DNode (mkd a name fs)) ->
  (forall y o n, In (y, DTree o) fs -> inside n o -> addr n <> a) ->
  order name = before ++ pv :: after -> pname pv = x -> In (x, DPrim p) fs ->
  (forall q, In q after -> exists o, In (pname q, DTree o) fs) ->
  last_label a (tree_dump_dot order (DNode (mkd a name fs))) = Some (dot_text p).
Proof.
  intros Hc Ha Ho <- Hi Hq. unfold tree_dump_dot. rewrite dump_node, dump1_eq, Ho. destruct (Hc a name fs (in_node _)) as [N _].
  unfold props_out. rewrite flat_map_app. cbn [flat_map]. rewrite out_at, (at_unique _ _ _ N Hi). cbn [field_dot].
  rewrite app_comm_cons, label_app, label_app, (label_none a (flat_map _ after)).
  - cbn [last_label]. rewrite Z.eqb_refl. reflexivity.
  - intros t Ht. apply in_flat_map in Ht. destruct Ht as (q & Hqa & Ht). destruct (Hq q Hqa) as (o & Hqo).
    rewrite out_at, (at_unique _ _ _ N Hqo) in Ht.
    assert (T : In (Value a t) (tree_dump_dot order o)).
    { destruct o as [|c l|n]; [contradiction| |]; cbn [field_dot] in Ht; destruct Ht as [Ht|Ht]; try discriminate Ht; exact Ht. }
    apply picture in T; [|eapply complete_field; eauto]. revert T. apply no_value. intros n Hn. apply (Ha _ _ _ Hqo Hn).
Qed.
End Picture.

(** The same inside a larger tree. *)
Lemma inside_trans m n o : inside m (DNode n) -> inside n o -> inside m o.
Proof. intros Hm Hn. revert m Hm. induction Hn as [n|n k a l Hk Hn IH|n a name fs x o Hi Hn IH]; intros m Hm; [exact Hm|econstructor; eauto|econstructor; eauto]. Qed.
Lemma inside_size m o : inside m o -> size m <= osize o.
Proof.
  induction 1 as [n|n m a l Hm _ IH|n a name fs x o Hi _ IH]; cbn [osize].
  - lia.
  - cbn [osize] in IH. apply (sum_le size) in Hm. lia.
  - cbn [size]. apply (sum_le (fun f => vsize (snd f))) in Hi. cbn [snd vsize] in Hi. lia.
Qed.

Section Inside.
Variable order : string -> list prop.
Variables (a : Z) (t : list ascii).
Let good (l : list statement) : Prop := last_label a l = None \/ last_label a l = Some t.

Lemma good_app l l' : good l -> good l' -> good (l ++ l').
Proof. unfold good. rewrite label_app. intros [H|H] [H'|H']; rewrite H'; auto. Qed.
Lemma good_other s l : (forall b u, s <> Value b u) -> good l -> good (s :: l).
Proof. intros Hs. unfold good. cbn [last_label]. intros [->| ->]; auto. left. destruct s; try reflexivity. destruct (Hs _ _ eq_refl). Qed.
Lemma good_links c l : (forall n, In n l -> good (tree_dump_dot_1 order n)) -> forall k prev, good (links c k prev (map (fun n => (addr n, tree_dump_dot_1 order n)) l)).
Proof.
  induction l as [|n l IH]; intros H k prev; cbn [map links]; [left; reflexivity|].
  apply good_other; [discriminate|]. apply good_app; [apply H; left; reflexivity|]. apply good_other; [discriminate|].
  assert (R : good (links c (S k) (Some (addr n)) (map (fun n => (addr n, tree_dump_dot_1 order n)) l))) by (apply IH; intros m Hm; apply H; right; exact Hm).
  destruct prev as [b|]; [|exact R]. cbn [app]. apply good_other; [discriminate|exact R].
Qed.

Lemma good_node n : (forall m, inside m (DNode n) -> addr m = a -> last_label a (tree_dump_dot_1 order m) = Some t) -> good (tree_dump_dot_1 order n).
Proof.
  induction n as [b name fs IH1 IH2] using node_induction. intros H.
  destruct (Z.eqb_spec b a) as [E|E]; [right; apply H; [constructor|exact E]|].
  rewrite dump1_eq. apply good_other; [discriminate|]. unfold props_out. induction (order name) as [|p l IHl]; cbn [flat_map]; [left; reflexivity|].
  apply good_app; [|exact IHl]. rewrite out_at. destruct (map_at (pname p) fs) as [v|] eqn:M; [|left; reflexivity]. apply map_at_in in M.
  destruct v as [[|c k|m]|q].
  - left. reflexivity.
  - change (good (First b (first_member c k) (pname p) :: tree_dump_dot_ order (DChain c k))). apply good_other; [discriminate|]. rewrite dump_chain.
    apply good_links. intros m Hm. apply (IH2 _ _ _ _ M Hm). intros m' Hm'. apply H. econstructor; [exact M|]. econstructor; eauto.
  - change (good (Edge b (addr m) (pname p) :: tree_dump_dot_1 order m)). apply good_other; [discriminate|].
    apply (IH1 _ _ M). intros m' Hm'. apply H. econstructor; [exact M|exact Hm'].
  - left. cbn [field_dot last_label]. destruct (Z.eqb_spec a b); [congruence|reflexivity].
Qed.
Lemma good_object o : (forall m, inside m o -> addr m = a -> last_label a (tree_dump_dot_1 order m) = Some t) -> good (tree_dump_dot order o).
Proof.
  unfold tree_dump_dot. destruct o as [|c l|n]; intros H; [left; reflexivity| |].
  - rewrite dump_chain. apply good_links. intros n Hn. apply good_node. intros m Hm. apply H. econstructor; eauto.
  - rewrite dump_node. apply good_node. exact H.
Qed.
End Inside.

Lemma label_some a u l : In (Value a u) l -> last_label a l <> None.
Proof.
  induction l as [|s l IH]; intros []; cbn [last_label].
  - subst s. rewrite Z.eqb_refl. destruct (last_label a l); discriminate.
  - specialize (IH H). destruct (last_label a l); [discriminate|contradiction].
Qed.

Lemma label_inside order o a name fs before pv after p :
  complete order o -> inside (mkd a name fs) o -> (forall n, inside n o -> addr n = a -> n = mkd a name fs) ->
  order name = before ++ pv :: after -> In (pname pv, DPrim p) fs ->
  (forall q, In q after -> exists o', In (pname q, DTree o') fs) ->
  last_label a (tree_dump_dot order o) = Some (dot_text p).
Proof.
  intros Hc Hi Hu Ho Hp Hq.
  assert (L : last_label a (tree_dump_dot_1 order (mkd a name fs)) = Some (dot_text p)).
  { apply (value_label order a name fs before (pname pv) p after pv); auto.
    - intros b nm gs Hg. apply (Hc b). eapply inside_trans; eauto.
    - intros y o' n Hy Hn E. assert (Hin : inside n (DNode (mkd a name fs))) by (econstructor; eauto).
      assert (n = mkd a name fs) by (apply Hu; [eapply inside_trans; eauto|exact E]). subst n.
      apply inside_size in Hn. cbn [size] in Hn. apply (sum_le (fun f => vsize (snd f))) in Hy. cbn [snd vsize] in Hy. lia. }
  destruct (good_object order a (dot_text p) o) as [N|S]; [|exfalso|exact S].
  - intros m Hm E. rewrite (Hu m Hm E). exact L.
  - revert N. apply (label_some a (dot_text p)). apply picture; [exact Hc|]. eapply d_value; eauto.
Qed.

Lemma dot_text_reads p : reads p (dot_text p).
Proof. destruct p as [z|s|[]|z|[]| |s]; cbn [dot_text prim_text]; constructor; apply print_decimal. Qed.

(** The cluster of an element of a chain. *)
Lemma links_split c before : forall k prev x out after, exists l r,
  links c k prev (before ++ (x, out) :: after) = l ++ Open c (k + List.length before) :: out ++ Close :: r.
Proof.
  induction before as [|[y o] before IH]; intros k prev x out after; cbn [app links List.length].
  - exists [], (match prev with Some b => [Next b x c k] | None => [] end ++ links c (S k) (Some x) after). rewrite Nat.add_0_r. reflexivity.
  - destruct (IH (S k) (Some y) x out after) as (l & r & ->).
    exists (Open c k :: o ++ Close :: match prev with Some b => [Next b y c k] | None => [] end ++ l), r.
    replace (k + S (List.length before)) with (S k + List.length before) by lia.
    cbn [app]. f_equal. rewrite <- !app_assoc. f_equal. cbn [app]. f_equal. rewrite <- !app_assoc. reflexivity.
Qed.
Lemma cluster order c before n after : exists l r,
  tree_dump_dot order (DChain c (before ++ n :: after)) = l ++ Open c (List.length before) :: tree_dump_dot order (DNode n) ++ Close :: r.
Proof.
  unfold tree_dump_dot. rewrite dump_chain, map_app. cbn [map].
  destruct (links_split c (map (fun n => (addr n, tree_dump_dot_1 order n)) before) 0 None (addr n) (tree_dump_dot_1 order n) (map (fun n => (addr n, tree_dump_dot_1 order n)) after)) as (l & r & ->).
  exists l, r. rewrite map_length. reflexivity.
Qed.

(** The last property that is no tree. *)
Lemma last_prim l x b : In (Of x b) l -> exists before y c after, l = before ++ Of y c :: after /\ forall q, In q after -> exists z, q = Tree z.
Proof.
  induction l as [|p l IH] using rev_ind; intros H; [contradiction|]. destruct p as [z|y c].
  - apply in_app_iff in H. destruct H as [H|[H|[]]]; [|discriminate H]. destruct (IH H) as (be & y & c & af & -> & Q).
    exists be, y, c, (af ++ [Tree z]). split; [rewrite <- app_assoc; reflexivity|]. intros q Hq. apply in_app_iff in Hq. destruct Hq as [Hq|[<-|[]]]; eauto.
  - exists l, y, c, []. split; [reflexivity|]. intros q [].
Qed.

(** A structure type, as a node without members. *)
Definition compound (sz : Z) (expanded : bool) : dnode :=
  mkd 1 "T_DECL_COMPOUND" [("ID", DTree DNull); ("DECLS", DTree DNull); ("SZ", DPrim (PSize sz)); ("EXPANDED", DPrim (PFlag expanded)); ("TYPE", DPrim (PCompound true))].
Definition compound_props : list prop := [Tree "ID"; Tree "DECLS"; Of "SZ" "sz"; Of "EXPANDED" "flag"; Of "TYPE" "comp_decl_type"].
Lemma compound_in : In ("T_DECL_COMPOUND", compound_props) (nodes c_lang).
Proof. apply (find_some (fun e => fst e =? "T_DECL_COMPOUND")%string (nodes c_lang)). vm_compute. reflexivity. Qed.
Lemma compound_inside n sz e : inside n (DNode (compound sz e)) -> n = compound sz e.
Proof.
  intros H. inversion H as [| |? ? ? ? x o Hi Ho]; subst; [reflexivity|]. exfalso.
  destruct Hi as [Hi|[Hi|[Hi|[Hi|[Hi|[]]]]]]; try discriminate Hi; injection Hi as _ <-; inversion Ho.
Qed.
Lemma compound_complete order sz e : any_order c_lang order -> complete order (DNode (compound sz e)).
Proof.
  intros Ho a name fs H. apply compound_inside in H. injection H as -> -> ->. split.
  - repeat constructor; cbn; intuition discriminate.
  - change (Permutation (map pname compound_props) (map pname (order "T_DECL_COMPOUND"))). apply Permutation_map. apply (Ho _ _ compound_in).
Qed.
Lemma compound_edges sz e sz' e' s : (forall a t, s <> Value a t) -> drawn (DNode (compound sz e)) s -> drawn (DNode (compound sz' e')) s.
Proof.
  intros V D. unfold compound in *. apply drawn_node in D. apply drawn_node. destruct D as [->|(x & v & Hi & D)]; [left; reflexivity|right].
  destruct Hi as [Hi|[Hi|[Hi|[Hi|[Hi|[]]]]]]; injection Hi as <- <-; cbn [fdrawn] in D.
  - exists "ID", (DTree DNull). split; [cbn; auto|exact D].
  - exists "DECLS", (DTree DNull). split; [cbn; auto|exact D].
  - destruct D as [D|D]; [destruct (V _ _ D)|]. exists "SZ", (DPrim (PSize sz')). split; [cbn; auto|right; exact D].
  - destruct D as [D|D]; [destruct (V _ _ D)|]. exists "EXPANDED", (DPrim (PFlag e')). split; [cbn; auto|right; exact D].
  - destruct D as [D|D]; [destruct (V _ _ D)|]. exists "TYPE", (DPrim (PCompound true)). split; [cbn; auto 6|right; exact D].
Qed.
Lemma compound_label order sz e before y c after p : any_order c_lang order -> order "T_DECL_COMPOUND" = before ++ Of y c :: after ->
  (forall q, In q after -> exists z, q = Tree z) ->
  In (y, DPrim p) [("SZ", DPrim (PSize sz)); ("EXPANDED", DPrim (PFlag e)); ("TYPE", DPrim (PCompound true))] ->
  last_label 1 (tree_dump_dot order (DNode (compound sz e))) = Some (dot_text p).
Proof.
  intros Ho Hs Ht Hi. apply (value_label order 1 "T_DECL_COMPOUND" _ before y p after (Of y c)).
  - apply compound_complete, Ho.
  - intros x o n Hx Hn. exfalso. destruct Hx as [Hx|[Hx|[Hx|[Hx|[Hx|[]]]]]]; try discriminate Hx; injection Hx as _ <-; inversion Hn.
  - exact Hs.
  - reflexivity.
  - right. right. exact Hi.
  - intros q Hq. destruct (Ht q Hq) as (z & ->).
    assert (Hz : In (Tree z) compound_props).
    { apply (Permutation_in _ (Permutation_sym (Ho _ _ compound_in))). rewrite Hs. apply in_app_iff. right. right. exact Hq. }
    exists DNull. destruct Hz as [Hz|[Hz|[Hz|[Hz|[Hz|[]]]]]]; try discriminate Hz; injection Hz as <-; cbn; auto.
Qed.
Lemma compound_same order sz e sz' e' t : any_order c_lang order ->
  last_label 1 (tree_dump_dot order (DNode (compound sz e))) = Some t -> last_label 1 (tree_dump_dot order (DNode (compound sz' e'))) = Some t ->
  same_picture (tree_dump_dot order (DNode (compound sz e))) (tree_dump_dot order (DNode (compound sz' e'))).
Proof.
  intros Ho L L'. split.
  - intros a. destruct (Z.eqb_spec a 1) as [->|Na]; [rewrite L, L'; reflexivity|].
    assert (N : forall sz e, last_label a (tree_dump_dot order (DNode (compound sz e))) = None).
    { intros z f. apply label_none. intros u Hu. apply picture in Hu; [|apply compound_complete, Ho]. revert Hu. apply no_value.
      intros n Hn. apply compound_inside in Hn. subst n. cbn. congruence. }
    rewrite !N. reflexivity.
  - intros s V. rewrite !picture by (apply compound_complete, Ho). split; apply compound_edges; exact V.
Qed.
Lemma values_lost order : any_order c_lang order -> exists n n', n <> n' /\ complete order (DNode n) /\ complete order (DNode n') /\
  same_picture (tree_dump_dot order (DNode n)) (tree_dump_dot order (DNode n')).
Proof.
  intros Ho. pose proof (Ho _ _ compound_in) as Q.
  destruct (last_prim (order "T_DECL_COMPOUND") "SZ" "sz") as (be & y & c & af & Hs & Ht).
  { apply (Permutation_in _ Q). cbn. auto. }
  assert (Hy : In (Of y c) compound_props) by (apply (Permutation_in _ (Permutation_sym Q)); rewrite Hs; apply in_app_iff; right; left; reflexivity).
  destruct Hy as [Hy|[Hy|[Hy|[Hy|[Hy|[]]]]]]; try discriminate Hy; injection Hy as <- <-.
  - exists (compound 8 true), (compound 8 false). split; [discriminate|]. split; [apply compound_complete, Ho|]. split; [apply compound_complete, Ho|].
    apply (compound_same order 8 true 8 false (dot_text (PSize 8)) Ho); apply (compound_label order 8 _ be _ _ af _ Ho Hs Ht); cbn; auto.
  - exists (compound 4 true), (compound 8 true). split; [discriminate|]. split; [apply compound_complete, Ho|]. split; [apply compound_complete, Ho|].
    apply (compound_same order 4 true 8 true (dot_text (PFlag true)) Ho); apply (compound_label order _ true be _ _ af _ Ho Hs Ht); cbn; auto.
  - exists (compound 4 true), (compound 8 true). split; [discriminate|]. split; [apply compound_complete, Ho|]. split; [apply compound_complete, Ho|].
    apply (compound_same order 4 true 8 true (dot_text (PCompound true)) Ho); apply (compound_label order _ true be _ _ af _ Ho Hs Ht); cbn; auto.
Qed.
