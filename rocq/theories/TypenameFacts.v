(** Lemmas about the type name tables. *)
From Coq Require Import ZArith List String Bool Lia.
From Verif Require Import CInt Tree Typename SpecTypename.
Import ListNotations.
Local Open Scope string_scope.
Local Open Scope list_scope.

(** Adding the names [xs]. *)
Definition add_names (xs : list string) (s : names) : names := fold_left (fun s x => add_name x s) xs s.

Lemma add_names_eq xs : forall s, add_names xs s =
  if in_include_file s then mknames (type_names s) (include_type_names s ++ xs) true
  else mknames (type_names s ++ xs) (include_type_names s) false.
Proof.
  induction xs as [|x xs IH]; intros s; cbn [add_names fold_left].
  - destruct s as [a b []]; cbn; rewrite app_nil_r; reflexivity.
  - change (add_names xs (add_name x s) = if in_include_file s then mknames (type_names s) (include_type_names s ++ x :: xs) true
      else mknames (type_names s ++ x :: xs) (include_type_names s) false). rewrite IH.
    destruct s as [a b []]; cbn; rewrite <- app_assoc; reflexivity.
Qed.

Lemma declarator_adds d s : declarator d -> exists xs, find_ids_to_map_to_typenames d s = add_names xs s /\
  forall x, In x xs <-> introduces d x.
Proof.
  induction 1 as [x|t H IH|t n H IH|t a r b H IH|l t e H IH].
  - exists [x]. split; [reflexivity|]. intros y. split; [intros [<-|[]]; constructor|inversion 1; left; reflexivity].
  - destruct IH as (xs & H1 & H2). exists xs. split; [exact H1|]. intros y. rewrite H2. split; [constructor; auto|inversion 1; auto].
  - destruct IH as (xs & H1 & H2). exists xs. split; [exact H1|]. intros y. rewrite H2. split; [constructor; auto|inversion 1; auto].
  - destruct IH as (xs & H1 & H2). exists xs. split; [exact H1|]. intros y. rewrite H2. split; [constructor; auto|inversion 1; auto].
  - exists []. split; [reflexivity|]. intros y. split; [intros []|inversion 1].
Qed.

Lemma declarators_add ds : forall s, Forall declarator ds ->
  exists xs, fold_left (fun s i => find_ids_to_map_to_typenames i s) ds s = add_names xs s /\
    forall x, In x xs <-> exists d, In d ds /\ introduces d x.
Proof.
  induction ds as [|d ds IH]; intros s H.
  - exists []. split; [reflexivity|]. intros x. split; [intros []|intros (d & [] & _)].
  - inversion H as [|? ? Hd Hds]; subst. destruct (declarator_adds d s Hd) as (xs & H1 & H2).
    destruct (IH (find_ids_to_map_to_typenames d s) Hds) as (ys & H3 & H4). exists (xs ++ ys). split.
    + cbn [fold_left]. rewrite H3, H1. unfold add_names. rewrite fold_left_app. reflexivity.
    + intros x. rewrite in_app_iff, H2, H4. split.
      * intros [Hx|(e & He & Hx)]; [exists d; cbn; auto|exists e; cbn; auto].
      * intros (e & [<-|He] & Hx); [left; exact Hx|right; eauto].
Qed.

Lemma has_typedef sps : chain_has T_TYPEDEF (CHAIN_HEAD sps) = true <-> In (T_SPEC T_TYPEDEF) sps.
Proof.
  unfold chain_has. cbn [chain_elems]. rewrite existsb_exists. split.
  - intros (t & Ht & H). destruct t; try discriminate. destruct sp; try discriminate. exact Ht.
  - intros H. exists (T_SPEC T_TYPEDEF). auto.
Qed.

Lemma event_adds e s : parsed e -> e <> Reset -> e <> HeadersBegin -> e <> HeadersEnd ->
  exists xs, on_event s e = add_names xs s /\ forall x, In x xs <-> typedefs e x.
Proof.
  destruct e as [l specs decls| | |]; try congruence. intros (sps & ds & -> & -> & Hds) _ _ _.
  cbn [on_event]. unfold maybe_add_typenames. destruct (chain_has T_TYPEDEF (CHAIN_HEAD sps)) eqn:Ht.
  - apply has_typedef in Ht. destruct (declarators_add ds s Hds) as (xs & H1 & H2). exists xs. split; [exact H1|].
    intros x. rewrite H2. split.
    + intros (d & Hd & Hx). exists l, sps, ds, d. auto.
    + intros (l' & sps' & ds' & d & He & _ & Hd & Hx). injection He as -> -> ->. eauto.
  - exists []. split; [reflexivity|]. intros x. split; [intros []|].
    intros (l' & sps' & ds' & d & He & Hin & _). injection He as -> -> ->. apply has_typedef in Hin. congruence.
Qed.

(** ** What the tables contain *)
Definition outside (l : list event) (x : string) : Prop :=
  exists p e q, l = p ++ e :: q /\ typedefs e x /\ ~ in_headers p.
Definition inside (l : list event) (x : string) : Prop :=
  exists p e q, l = p ++ e :: q /\ typedefs e x /\ in_headers p /\ ~ In Reset q.

Lemma in_headers_snoc p e : in_headers (p ++ [e]) <-> e = HeadersBegin \/ (in_headers p /\ e <> HeadersEnd).
Proof.
  split.
  - intros (q & r & H & Hr). destruct r as [|y r] using rev_ind.
    + apply app_inj_tail in H as [_ <-]. auto.
    + clear IHr. change (HeadersBegin :: r ++ [y]) with ((HeadersBegin :: r) ++ [y]) in H. rewrite app_assoc in H.
      apply app_inj_tail in H as [-> <-]. right. split.
      * exists q, r. split; [reflexivity|]. intros Hin. apply Hr, in_or_app. auto.
      * intros ->. apply Hr, in_or_app. cbn. auto.
  - intros [->|[(q & r & -> & Hr) He]].
    + exists p, []. split; [reflexivity|intros []].
    + exists q, (r ++ [e]). split; [rewrite <- app_assoc; reflexivity|]. rewrite in_app_iff. intros [H|[H|[]]]; auto.
Qed.

Lemma snoc_cases A (l p q : list A) e y : l ++ [y] = p ++ e :: q ->
  (p = l /\ e = y /\ q = []) \/ exists q', q = q' ++ [y] /\ l = p ++ e :: q'.
Proof.
  destruct q as [|z q] using rev_ind; intros H.
  - apply app_inj_tail in H as [-> ->]. auto.
  - change (p ++ e :: q ++ [z]) with (p ++ (e :: q) ++ [z]) in H. rewrite app_assoc in H.
    apply app_inj_tail in H as [-> ->]. right. eauto.
Qed.

Lemma outside_snoc l y x : outside (l ++ [y]) x <-> outside l x \/ typedefs y x /\ ~ in_headers l.
Proof.
  split.
  - intros (p & e & q & H & Ht & Hh). apply snoc_cases in H as [(-> & -> & ->)|(q' & -> & ->)]; [right; auto|left].
    exists p, e, q'. auto.
  - intros [(p & e & q & -> & Ht & Hh)|[Ht Hh]].
    + exists p, e, (q ++ [y]). rewrite <- app_assoc. auto.
    + exists l, y, []. auto.
Qed.
Lemma inside_snoc l y x : inside (l ++ [y]) x <-> inside l x /\ y <> Reset \/ typedefs y x /\ in_headers l.
Proof.
  split.
  - intros (p & e & q & H & Ht & Hh & Hr). apply snoc_cases in H as [(-> & -> & ->)|(q' & -> & ->)]; [right; auto|left].
    rewrite in_app_iff in Hr. split; [exists p, e, q'; split; [reflexivity|tauto]|]. intros H. apply Hr. right. left. exact H.
  - intros [[(p & e & q & -> & Ht & Hh & Hr) Hy]|[Ht Hh]].
    + exists p, e, (q ++ [y]). rewrite <- app_assoc. split; [reflexivity|]. split; [exact Ht|]. split; [exact Hh|].
      rewrite in_app_iff. intros [H|[H|H]]; auto.
    + exists l, y, []. auto.
Qed.

Lemma not_typedef y x : match y with Declaration _ _ _ => False | _ => True end -> ~ typedefs y x.
Proof. destruct y; intros H (l' & sps & ds & d & He & _); try discriminate. contradiction. Qed.

Lemma tables l : Forall parsed l ->
  (forall x, In x (type_names (after_events l)) <-> x = "__builtin_va_list" \/ x = "_Float128" \/ outside l x) /\
  (forall x, In x (include_type_names (after_events l)) <-> inside l x) /\
  (in_include_file (after_events l) = true <-> in_headers l).
Proof.
  induction l as [|y l IH] using rev_ind; intros Hp.
  - split; [|split].
    + intros x. cbn. split; [intros [<-|[<-|[]]]; auto|]. intros [->|[->|(p & e & q & H & _)]]; auto. destruct p; discriminate.
    + intros x. cbn. split; [intros []|]. intros (p & e & q & H & _). destruct p; discriminate.
    + cbn. split; [discriminate|]. intros (p & r & H & _). destruct p; discriminate.
  - apply Forall_app in Hp as [Hp Hy]. inversion Hy as [|? ? Hy' _]; subst. clear Hy. destruct (IH Hp) as (H1 & H2 & H3). clear IH.
    unfold after_events in *. rewrite fold_left_app. cbn [fold_left]. set (s := fold_left on_event l _) in *.
    assert (Hcase : y = Reset \/ y = HeadersBegin \/ y = HeadersEnd \/ (y <> Reset /\ y <> HeadersBegin /\ y <> HeadersEnd))
      by (destruct y; intuition congruence).
    destruct Hcase as [->|[->|[->|(Hn1 & Hn2 & Hn3)]]].
    + split; [|split].
      * intros x. cbn. rewrite H1, outside_snoc. pose proof (not_typedef Reset x I). tauto.
      * intros x. cbn. rewrite inside_snoc. pose proof (not_typedef Reset x I). tauto.
      * cbn. rewrite H3, in_headers_snoc. intuition congruence.
    + split; [|split].
      * intros x. cbn. rewrite H1, outside_snoc. pose proof (not_typedef HeadersBegin x I). tauto.
      * intros x. cbn. rewrite H2, inside_snoc. pose proof (not_typedef HeadersBegin x I). intuition congruence.
      * cbn. rewrite in_headers_snoc. tauto.
    + split; [|split].
      * intros x. cbn. rewrite H1, outside_snoc. pose proof (not_typedef HeadersEnd x I). tauto.
      * intros x. cbn. rewrite H2, inside_snoc. pose proof (not_typedef HeadersEnd x I). intuition congruence.
      * cbn. rewrite in_headers_snoc. intuition congruence.
    + destruct (event_adds y s Hy' Hn1 Hn2 Hn3) as (xs & He & Hx). rewrite He, add_names_eq.
      destruct (in_include_file s) eqn:Hf.
      * assert (Hh : in_headers l) by (apply H3; reflexivity). split; [|split].
        -- intros x. cbn. rewrite H1, outside_snoc. tauto.
        -- intros x. cbn. rewrite in_app_iff, H2, Hx, inside_snoc. tauto.
        -- cbn. rewrite in_headers_snoc. tauto.
      * assert (Hh : ~ in_headers l) by (intros H; apply H3 in H; discriminate). split; [|split].
        -- intros x. cbn. rewrite in_app_iff, H1, Hx, outside_snoc. tauto.
        -- intros x. cbn. rewrite H2, inside_snoc. tauto.
        -- cbn. rewrite in_headers_snoc. intuition congruence.
Qed.

Lemma existsb_eqb x l : existsb (String.eqb x) l = true <-> In x l.
Proof.
  rewrite existsb_exists. split; [intros (y & Hy & H); apply String.eqb_eq in H; subst; exact Hy|].
  intros H. exists x. split; [exact H|apply String.eqb_refl].
Qed.

Lemma in_headers_dec l : in_headers l \/ ~ in_headers l.
Proof.
  induction l as [|y l IH] using rev_ind; [right; intros (p & r & H & _); destruct p; discriminate|].
  rewrite in_headers_snoc. destruct y; intuition congruence.
Qed.

Theorem is_typename_iff l x : Forall parsed l -> is_typename x (after_events l) = true <-> type_name l x.
Proof.
  intros Hp. destruct (tables l Hp) as (H1 & H2 & _). unfold is_typename.
  assert (He : (if existsb (String.eqb x) (type_names (after_events l)) then true
    else existsb (String.eqb x) (include_type_names (after_events l))) = true <->
    In x (type_names (after_events l)) \/ In x (include_type_names (after_events l))).
  { rewrite <- !existsb_eqb. destruct (existsb _ (type_names _)); intuition congruence. }
  rewrite He, H1, H2. unfold type_name. split.
  - intros [[H|[H|(p & e & q & H)]]|(p & e & q & H)]; auto; right; right; exists p, e, q; tauto.
  - intros [H|[H|(p & e & q & H & Ht & Hr)]]; auto.
    destruct (in_headers_dec p) as [Hh|Hh]; [right|left; right; right]; exists p, e, q; auto.
Qed.
