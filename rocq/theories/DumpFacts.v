(** Proofs for C76. *)
From Coq Require Import ZArith List String Ascii Bool Permutation Lia.
From Verif Require Import Lang SpecLang Lexer SpecLexer SpecSession LexerFacts SessionFacts Dump SpecDump.
Import ListNotations.
Local Open Scope string_scope.
Local Open Scope list_scope.

(** A text up to the first of some characters. *)
Definition starts (l t : list ascii) : Prop := exists c r, t = c :: r /\ In c l.
Lemma split_at l a : forall b y y', without l a -> without l b -> starts l y -> starts l y' -> a ++ y = b ++ y' -> a = b /\ y = y'.
Proof.
  induction a as [|c a IH]; intros [|e b] y y' Wa Wb Y Y' Q; cbn [app] in Q.
  - auto.
  - destruct Y as (k & r & -> & Hk). injection Q as -> _. exfalso. apply (Wb e Hk). left. reflexivity.
  - destruct Y' as (k & r & -> & Hk). injection Q as -> _. exfalso. apply (Wa k Hk). left. reflexivity.
  - injection Q as -> Q. destruct (IH b y y') as [-> ->]; auto.
    + intros x Hx Hi. apply (Wa x Hx). right. exact Hi.
    + intros x Hx Hi. apply (Wb x Hx). right. exact Hi.
Qed.

Lemma chars_inj a b : list_ascii_of_string a = list_ascii_of_string b -> a = b.
Proof. intros H. rewrite <- (string_of_list_ascii_of_string a), <- (string_of_list_ascii_of_string b), H. reflexivity. Qed.

Definition ends : list ascii := [">"%char; "010"%char].

Lemma decimal_fun v w t : decimal v t -> decimal w t -> v = w.
Proof.
  intros (ds & N & _ & Q) (es & M & _ & Q').
  destruct (numeral_value 10 is_D digit_is_D _ _ N) as (N1 & N2 & N3). destruct (numeral_value 10 is_D digit_is_D _ _ M) as (M1 & M2 & M3).
  assert (D : forall s, forallb is_D s = true -> forall r, s = "-"%char :: r -> False) by (intros s F r ->; discriminate F).
  destruct (Z.ltb_spec v 0), (Z.ltb_spec w 0); subst t.
  - injection Q' as <-. lia.
  - symmetry in Q'. destruct (D _ M2 _ Q').
  - destruct (D _ N2 _ Q').
  - subst es. lia.
Qed.
Lemma print_integer_inj v w : print_integer v = print_integer w -> v = w.
Proof. intros H. apply (decimal_fun v w (print_integer v)); [apply print_decimal|rewrite H; apply print_decimal]. Qed.
Lemma print_integer_clean z : without ends (print_integer z).
Proof.
  destruct (print_decimal z) as (ds & N & _ & ->). destruct (numeral_value 10 is_D digit_is_D _ _ N) as (_ & F & _). rewrite forallb_forall in F.
  assert (W : without ends ds) by (intros c Hc Hi; specialize (F c Hi); destruct Hc as [<-|[<-|[]]]; discriminate F).
  destruct (z <? 0)%Z; [|exact W]. intros c Hc [<-|Hi]; [|exact (W c Hc Hi)]. destruct Hc as [H|[H|[]]]; discriminate H.
Qed.

Lemma prim_unique b p p' r r' : of_base b p -> of_base b p' -> starts ends r -> starts ends r' -> prim_text p ++ r = prim_text p' ++ r' -> p = p' /\ r = r'.
Proof.
  assert (C : forall s, (forallb (fun c => negb (Ascii.eqb c ">" || Ascii.eqb c "010")) s)%char = true -> without ends s).
  { intros s F c Hc Hi. rewrite forallb_forall in F. specialize (F c Hi). destruct Hc as [<-|[<-|[]]]; discriminate F. }
  intros B B' R R' Q.
  destruct B as [z|s W|x|z|x|n I|n s I W]; inversion B' as [z' Hb|s' W' Hb|x' Hb|z' Hb|x' Hb|n' I' Hb|n' s' I' W' Hb]; subst;
    try (exfalso; repeat match goal with H : In _ [_;_;_;_] |- _ => destruct H as [H|[H|[H|[H|[]]]]]; try discriminate H; subst
      | H : In _ [_;_;_] |- _ => destruct H as [H|[H|[H|[]]]]; try discriminate H; subst end; fail).
  - apply (split_at ends) in Q; [|apply print_integer_clean|apply print_integer_clean|exact R|exact R']. destruct Q as [Q ->]. apply print_integer_inj in Q. subst. auto.
  - cbn [prim_text app] in Q. injection Q as Q. rewrite <- !app_assoc in Q.
    apply (split_at [quote]) in Q; [|exact W|exact W'|exists quote, r; split; [reflexivity|left; reflexivity]|exists quote, r'; split; [reflexivity|left; reflexivity]].
    destruct Q as [-> Q]. injection Q as ->. auto.
  - apply (split_at ends) in Q; [|destruct x; apply C; reflexivity|destruct x'; apply C; reflexivity|exact R|exact R'].
    destruct Q as [Q ->]. destruct x, x'; try discriminate Q; auto.
  - apply (split_at ends) in Q; [|apply print_integer_clean|apply print_integer_clean|exact R|exact R']. destruct Q as [Q ->]. apply print_integer_inj in Q. subst. auto.
  - apply (split_at ends) in Q; [|destruct x; apply C; reflexivity|destruct x'; apply C; reflexivity|exact R|exact R'].
    destruct Q as [Q ->]. destruct x, x'; try discriminate Q; auto.
  - cbn [prim_text app] in Q. auto.
  - apply (split_at ends) in Q; [|exact W|exact W'|exact R|exact R']. destruct Q as [Q ->]. cbn [prim_text] in Q. subst. auto.
Qed.

Section Unique.
Variable d : list def.
Variable order : string -> list prop.
Hypothesis Rd : readable_names d.
Hypothesis Ord : any_order d order.

Notation dump := (tree_dump_ d order).
Notation dump_1 := (tree_dump_1 d order).
Notation vtext := (val_text d order).

Definition same_val (v v' : val) : Prop :=
  forall depth r r', starts ends r -> starts ends r' -> vtext depth v ++ r = vtext depth v' ++ r' -> v = v' /\ r = r'.
Definition same_field (f f' : string * val) : Prop := fst f = fst f' /\ same_val (snd f) (snd f').
Definition texts (depth : nat) (fs : list (string * val)) : list (string * list ascii) := map (fun f => (fst f, vtext depth (snd f))) fs.

Lemma at_pair depth fs fs' x : Forall2 same_field fs fs' -> In x (map fst fs) -> exists v v', same_val v v' /\
  map_at x (texts depth fs) = Some (vtext depth v) /\ map_at x (texts depth fs') = Some (vtext depth v') /\ map_at x fs = Some v /\ map_at x fs' = Some v'.
Proof.
  unfold map_at, texts. induction 1 as [|[y v] [y' v'] fs fs' [Hy Hv] F IH]; intros Hx; [contradiction|]. cbn [fst snd] in Hy, Hv. subst y'.
  cbn [map find fst snd]. destruct (y =? x) eqn:Q; [exists v, v'; auto|].
  destruct Hx as [Hx|Hx]; [cbn in Hx; subst; rewrite String.eqb_refl in Q; discriminate Q|]. exact (IH Hx).
Qed.

Lemma same_fields (fs : list (string * val)) : forall fs', map fst fs = map fst fs' -> NoDup (map fst fs) -> (forall x, In x (map fst fs) -> map_at x fs = map_at x fs') -> fs = fs'.
Proof.
  unfold map_at. induction fs as [|[x v] fs IH]; intros [|[x' v'] fs'] Hn Hd H; try discriminate Hn; [reflexivity|].
  cbn [map fst] in Hn, Hd. injection Hn as <- Hn. inversion Hd as [|? ? Hx Hd']; subst.
  pose proof (H x (or_introl eq_refl)) as Hv. cbn [find fst] in Hv. rewrite String.eqb_refl in Hv. injection Hv as <-. f_equal.
  apply IH; auto. intros y Hy. specialize (H y (or_intror Hy)). cbn [find fst] in H. destruct (x =? y) eqn:Q; [apply String.eqb_eq in Q; subst; contradiction|exact H].
Qed.

Definition rest depth ind prefix fs (l : list prop) : list ascii :=
  flat_map (fun p => line_end ++ indent ind ++ list_ascii_of_string "     " ++ prop_text prefix (texts depth fs) p) l.
Lemma rest_starts depth ind prefix fs l r : starts ends r -> starts ends (rest depth ind prefix fs l ++ r).
Proof. intros H. destruct l as [|p l]; [exact H|]. eexists. eexists. split; [reflexivity|right; left; reflexivity]. Qed.

Lemma prop_unique depth prefix fs fs' p r r' : Forall2 same_field fs fs' -> In (pname p) (map fst fs) -> starts ends r -> starts ends r' ->
  prop_text prefix (texts depth fs) p ++ r = prop_text prefix (texts depth fs') p ++ r' -> map_at (pname p) fs = map_at (pname p) fs' /\ r = r'.
Proof.
  intros F I R R' Q. destruct (at_pair depth fs fs' (pname p) F I) as (v & v' & S & T1 & T2 & A1 & A2). unfold prop_text in Q. rewrite T1, T2 in Q.
  rewrite <- !app_assoc in Q. do 3 apply app_inv_head in Q. destruct (S depth r r' R R' Q) as [-> ->]. rewrite A1, A2. auto.
Qed.

Lemma rest_unique depth ind prefix fs fs' r r' : Forall2 same_field fs fs' -> starts ends r -> starts ends r' ->
  forall l, (forall p, In p l -> In (pname p) (map fst fs)) -> rest depth ind prefix fs l ++ r = rest depth ind prefix fs' l ++ r' ->
  (forall p, In p l -> map_at (pname p) fs = map_at (pname p) fs') /\ r = r'.
Proof.
  intros F R R'. induction l as [|p l IH]; intros Hl Q; [split; [intros p []|exact Q]|].
  unfold rest in Q. cbn [flat_map] in Q. fold (rest depth ind prefix fs l) in Q. fold (rest depth ind prefix fs' l) in Q.
  rewrite <- !app_assoc in Q. do 3 apply app_inv_head in Q.
  apply (prop_unique depth prefix fs fs' p _ _ F (Hl p (or_introl eq_refl))) in Q; [|apply rest_starts, R|apply rest_starts, R'].
  destruct Q as [A Q]. destruct (IH (fun q Hq => Hl q (or_intror Hq)) Q) as [B ->]. split; [|reflexivity].
  intros q [<-|Hq]; auto.
Qed.

Lemma props_unique depth ind prefix fs fs' l r r' : Forall2 same_field fs fs' -> starts ends r -> starts ends r' ->
  (forall p, In p l -> In (pname p) (map fst fs)) ->
  props_text ind prefix (texts depth fs) l ++ r = props_text ind prefix (texts depth fs') l ++ r' ->
  (forall p, In p l -> map_at (pname p) fs = map_at (pname p) fs') /\ r = r'.
Proof.
  intros F R R' Hl Q. destruct l as [|p l]; [split; [intros p []|exact Q]|]. unfold props_text in Q.
  fold (rest depth ind prefix fs l) in Q. fold (rest depth ind prefix fs' l) in Q. rewrite <- !app_assoc in Q.
  apply (prop_unique depth prefix fs fs' p _ _ F (Hl p (or_introl eq_refl))) in Q; [|apply rest_starts, R|apply rest_starts, R'].
  destruct Q as [A Q]. destruct (rest_unique depth ind prefix fs fs' r r' F R R' l (fun q Hq => Hl q (or_intror Hq)) Q) as [B ->].
  split; [|reflexivity]. intros q [<-|Hq]; auto.
Qed.

Lemma fields_names ps fs : fits_fields d ps fs -> map fst fs = map pname ps.
Proof. induction 1; cbn [map fst pname]; f_equal; auto. Qed.

Lemma listed_once name ps ps' : In (name, ps) (nodes d) -> In (name, ps') (nodes d) -> ps = ps'.
Proof.
  destruct Rd as [N _]. induction (nodes d) as [|[n q] l IH]; intros H H'; [contradiction|]. cbn [map fst] in N. inversion N as [|? ? Nx N']; subst.
  destruct H as [H|H], H' as [H'|H'].
  - congruence.
  - injection H as -> ->. exfalso. apply Nx. apply (in_map fst) in H'. exact H'.
  - injection H' as -> ->. exfalso. apply Nx. apply (in_map fst) in H. exact H.
  - auto.
Qed.

Lemma case_text_eq depth name fs r : dump_1 depth (mknode name fs) ++ r =
  line_end ++ indent depth ++ list_ascii_of_string "<tree " ++ list_ascii_of_string name ++
    props_text depth (fst (type_of d name)) (texts (S depth) fs) (order name) ++
    (if existsb is_tree (order name) then line_end ++ indent depth else []) ++ ">"%char :: r.
Proof. cbn [tree_dump_1]. unfold case_text, texts. rewrite <- !app_assoc. reflexivity. Qed.

Lemma tail_starts depth l r : starts ends ((if existsb is_tree l then line_end ++ indent depth else []) ++ ">"%char :: r).
Proof. destruct (existsb is_tree l); eexists; eexists; (split; [reflexivity|]); [right; left|left]; reflexivity. Qed.
Lemma name_starts depth prefix ts l r : starts [" "%char; ">"%char] (props_text depth prefix ts l ++
  (if existsb is_tree l then line_end ++ indent depth else []) ++ ">"%char :: r).
Proof. destruct l as [|p l]; eexists; eexists; (split; [reflexivity|]); [right; left|left]; reflexivity. Qed.

Lemma node_unique name ps fs n' depth r r' : In (name, ps) (nodes d) -> fits_fields d ps fs ->
  (forall fs', fits_fields d ps fs' -> Forall2 same_field fs fs') -> fits_node d n' ->
  dump_1 depth (mknode name fs) ++ r = dump_1 depth n' ++ r' -> mknode name fs = n' /\ r = r'.
Proof.
  intros I Fs IH Fn Q. destruct Fn as [name' ps' fs' I' Fs']. rewrite !case_text_eq in Q. do 3 apply app_inv_head in Q.
  destruct Rd as [_ Nm]. destruct (Nm _ _ I) as [W Nd]. destruct (Nm _ _ I') as [W' _].
  apply (split_at [" "%char; ">"%char]) in Q; [|exact W|exact W'|apply name_starts|apply name_starts].
  destruct Q as [Q Q2]. apply chars_inj in Q. subst name'. pose proof (listed_once _ _ _ I I') as <-.
  pose proof (Ord _ _ I) as P. pose proof (fields_names _ _ Fs) as Hn.
  apply (props_unique (S depth) depth _ fs fs') in Q2; [|apply IH, Fs'|apply tail_starts|apply tail_starts|].
  2: { intros p Hp. rewrite Hn. apply in_map. apply (Permutation_in _ (Permutation_sym P)), Hp. }
  destruct Q2 as [A Q2]. apply app_inv_head in Q2. injection Q2 as <-. split; [|reflexivity]. f_equal.
  apply same_fields.
  - rewrite Hn. symmetry. apply fields_names, Fs'.
  - rewrite Hn. exact Nd.
  - rewrite Hn. intros x Hx. apply in_map_iff in Hx. destruct Hx as (p & <- & Hp). apply A. apply (Permutation_in _ P), Hp.
Qed.

Scheme fits_mind := Minimality for fits Sort Prop
with fits_node_mind := Minimality for fits_node Sort Prop
with fits_fields_mind := Minimality for fits_fields Sort Prop.
Combined Scheme fits_all from fits_mind, fits_node_mind, fits_fields_mind.

Definition unique (o : obj) : Prop := forall o' depth r r', fits d o' -> dump depth o ++ r = dump depth o' ++ r' -> o = o' /\ r = r'.
Definition unique_node (n : node) : Prop := forall n' depth r r', fits_node d n' -> dump_1 depth n ++ r = dump_1 depth n' ++ r' -> n = n' /\ r = r'.

Lemma node_line depth n r : exists t, dump_1 depth n ++ r = line_end ++ indent depth ++ list_ascii_of_string "<tree " ++ t.
Proof. destruct n as [name fs]. rewrite case_text_eq. eexists. reflexivity. Qed.
Lemma null_line depth r t : (indent depth ++ list_ascii_of_string "<null>" ++ line_end) ++ r = line_end ++ t -> False.
Proof. destruct depth; discriminate. Qed.

Lemma chain_unique depth l : (forall n, In n l -> unique_node n) -> forall l' r r', (forall n, In n l' -> fits_node d n) ->
  flat_map (dump_1 (S depth)) l ++ line_end ++ indent depth ++ ">"%char :: r = flat_map (dump_1 (S depth)) l' ++ line_end ++ indent depth ++ ">"%char :: r' ->
  l = l' /\ r = r'.
Proof.
  assert (D : forall n t r, dump_1 (S depth) n ++ t = line_end ++ indent depth ++ ">"%char :: r -> False).
  { intros n t r Q. destruct (node_line (S depth) n t) as [u Hu]. rewrite Hu in Q. apply app_inv_head in Q. unfold indent in Q.
    replace (2 * S depth)%nat with (2 * depth + 2)%nat in Q by lia. rewrite repeat_app, <- app_assoc in Q. apply app_inv_head in Q. discriminate Q. }
  induction l as [|n l IH]; intros U [|n' l'] r r' F Q; cbn [flat_map] in Q.
  - cbn [app] in Q. do 2 apply app_inv_head in Q. injection Q as <-. auto.
  - cbn [app] in Q. rewrite <- app_assoc in Q. symmetry in Q. apply D in Q. contradiction.
  - cbn [app] in Q. rewrite <- app_assoc in Q. apply D in Q. contradiction.
  - rewrite <- !app_assoc in Q. apply (U n (or_introl eq_refl) n') in Q; [|apply F; left; reflexivity]. destruct Q as [-> Q].
    destruct (IH (fun m Hm => U m (or_intror Hm)) l' r r' (fun m Hm => F m (or_intror Hm)) Q) as [-> ->]. auto.
Qed.

Lemma dump_null depth : dump depth ONull = indent depth ++ list_ascii_of_string "<null>" ++ line_end.
Proof. reflexivity. Qed.
Lemma dump_chain depth l : dump depth (OChain l) =
  line_end ++ indent depth ++ list_ascii_of_string "<chain" ++ flat_map (dump_1 (S depth)) l ++ line_end ++ indent depth ++ list_ascii_of_string ">".
Proof. reflexivity. Qed.
Lemma dump_node depth n : dump depth (ONode n) = dump_1 depth n.
Proof. reflexivity. Qed.

Lemma all_unique : (forall o, fits d o -> unique o) /\ (forall n, fits_node d n -> unique_node n) /\
  (forall ps fs, fits_fields d ps fs -> fits_fields d ps fs /\ forall fs', fits_fields d ps fs' -> Forall2 same_field fs fs').
Proof.
  apply (fits_all d unique unique_node (fun ps fs => fits_fields d ps fs /\ forall fs', fits_fields d ps fs' -> Forall2 same_field fs fs')).
  - intros o' depth r r' F Q. destruct o' as [|l'|n']; rewrite ?dump_null, ?dump_chain, ?dump_node in Q.
    + apply app_inv_head in Q. auto.
    + rewrite <- (app_assoc line_end) in Q. apply null_line in Q. contradiction.
    + destruct (node_line depth n' r') as [u Hu]. rewrite Hu in Q. apply null_line in Q. contradiction.
  - intros l _ IH o' depth r r' F Q. destruct o' as [|l'|n']; rewrite ?dump_null, ?dump_chain, ?dump_node in Q.
    + rewrite <- (app_assoc line_end) in Q. symmetry in Q. apply null_line in Q. contradiction.
    + rewrite <- !app_assoc in Q. do 3 apply app_inv_head in Q. inversion F as [|? F'|]; subst.
      destruct (chain_unique depth l IH l' r r' F' Q) as [-> ->]. auto.
    + destruct (node_line depth n' r') as [u Hu]. rewrite Hu in Q. rewrite <- !app_assoc in Q. do 2 apply app_inv_head in Q. discriminate Q.
  - intros n _ IH o' depth r r' F Q. destruct o' as [|l'|n']; rewrite ?dump_null, ?dump_chain, ?dump_node in Q.
    + destruct (node_line depth n r) as [u Hu]. rewrite Hu in Q. symmetry in Q. apply null_line in Q. contradiction.
    + destruct (node_line depth n r) as [u Hu]. rewrite Hu in Q. rewrite <- !app_assoc in Q. do 2 apply app_inv_head in Q. discriminate Q.
    + inversion F; subst. apply IH in Q; [|assumption]. destruct Q as [-> ->]. auto.
  - intros name ps fs I _ [Fs IH] n' depth r r' F Q. eapply node_unique; eauto.
  - split; [constructor|]. intros fs' F. inversion F. constructor.
  - intros x o ps fs Fo IHo _ [Fs IH]. split; [constructor; auto|]. intros fs' F. inversion F as [|? o' ? fs2 Fo' F2|]; subst. constructor; [|auto].
    split; [reflexivity|]. intros depth r r' _ _ Q. cbn [snd val_text] in Q |- *. apply IHo in Q; [|assumption]. destruct Q as [-> ->]. auto.
  - intros x b p ps fs B _ [Fs IH]. split; [constructor; auto|]. intros fs' F. inversion F as [|? o' ? fs2 Fo' F2|? ? p' ? fs2 B' F2]; subst. constructor; [|auto].
    split; [reflexivity|]. intros depth r r' R R' Q. cbn [snd val_text] in Q |- *. destruct (prim_unique b p p' r r' B B' R R' Q) as [-> ->]. auto.
Qed.

Lemma dump_unique o o' depth r r' : fits d o -> fits d o' -> dump depth o ++ r = dump depth o' ++ r' -> o = o' /\ r = r'.
Proof. intros F F' Q. destruct all_unique as [U _]. eapply U; eauto. Qed.
End Unique.

(** The accessors. *)
Lemma type_found d x name t : NoDup (map fst (nodes d)) -> In x d -> defines x name t -> type_of d name = t.
Proof.
  unfold type_of. intros N I D. assert (K : In name (map fst (nodes [x])) ).
  { destruct x as [| n f [u|]|n f a b c e [u|]| | |]; cbn in D; try contradiction; destruct D as [-> _]; left; reflexivity. }
  induction d as [|y d IH]; [contradiction|]. unfold nodes in N. cbn [flat_map] in N. fold (nodes d) in N. rewrite map_app in N. cbn [find].
  destruct I as [->|I].
  - destruct x as [| n f [u|]|n f a b c e [u|]| | |]; cbn in D; try contradiction; destruct D as [-> ->]; cbn beta iota; rewrite String.eqb_refl; reflexivity.
  - assert (In name (map fst (nodes d))).
    { clear - I K. induction d as [|z d IH]; [contradiction|]. unfold nodes in *. cbn [flat_map] in *. rewrite map_app. apply in_app_iff.
      destruct I as [->|I]; [left; rewrite app_nil_r in K; exact K|right; auto]. }
    assert (Y : match y with Node n _ _ | CNode n _ _ _ _ _ _ => (n =? name)%string | _ => false end = false).
    { destruct y; try reflexivity; cbn in N; inversion N as [|? ? Nx _]; subst; apply String.eqb_neq; intros ->; contradiction. }
    rewrite Y. apply IH; [|exact I]. clear - N. induction (map fst _) as [|a l IH] in N |- *; [exact N|]. inversion N; subst. auto.
Qed.

Lemma node_shows d order depth name fs t x v f : readable_names d -> any_order d order -> In f d -> defines f name t ->
  fits_fields d (snd t) fs -> In (x, v) fs ->
  exists before after, tree_dump_1 d order depth (mknode name fs) =
    before ++ list_ascii_of_string (" " ++ fst t ++ "_" ++ x ++ ": ") ++ val_text d order (S depth) v ++ after.
Proof.
  intros Rd Ord If Df Ff Ix. pose proof (type_found d f name t (proj1 Rd) If Df) as T.
  assert (In (name, snd t) (nodes d)) as In1.
  { unfold nodes. apply in_flat_map. exists f. split; [exact If|].
    destruct f as [| n g [u|]|n g a b c e [u|]| | |]; cbn in Df; try contradiction; destruct Df as [-> ->]; destruct t; left; reflexivity. }
  destruct (proj2 Rd _ _ In1) as [_ Nd]. pose proof (Ord _ _ In1) as P. pose proof (fields_names d _ _ Ff) as Hn.
  assert (M : map_at x (texts d order (S depth) fs) = Some (val_text d order (S depth) v)).
  { rewrite <- Hn in Nd. clear - Nd Ix. unfold map_at, texts. induction fs as [|[y w] fs IH]; [contradiction|]. cbn [map find fst snd] in *. inversion Nd as [|? ? Ny Nd']; subst.
    destruct Ix as [Q|Ix]; [injection Q as -> ->; rewrite String.eqb_refl; reflexivity|].
    destruct (y =? x)%string eqn:Q; [apply String.eqb_eq in Q; subst; exfalso; apply Ny; apply (in_map fst) in Ix; exact Ix|auto]. }
  assert (Hx : In x (map pname (snd t))) by (rewrite <- Hn; apply (in_map fst) in Ix; exact Ix).
  apply in_map_iff in Hx. destruct Hx as (p & <- & Hp). apply (Permutation_in _ P) in Hp.
  assert (A : forall a b, list_ascii_of_string (a ++ b)%string = list_ascii_of_string a ++ list_ascii_of_string b).
  { induction a as [|c a IH]; intros b; [reflexivity|]. cbn. rewrite IH. reflexivity. }
  assert (R : prop_text (fst t) (texts d order (S depth) fs) p = list_ascii_of_string (" " ++ fst t ++ "_" ++ pname p ++ ": ") ++ val_text d order (S depth) v).
  { unfold prop_text, accessor. rewrite M, !A, <- !app_assoc. reflexivity. }
  assert (L : exists b a, props_text depth (fst t) (texts d order (S depth) fs) (order name) = b ++ prop_text (fst t) (texts d order (S depth) fs) p ++ a).
  { apply in_split in Hp. destruct Hp as (l1 & l2 & ->). generalize (texts d order (S depth) fs). intros ts.
    set (g := fun p => line_end ++ indent depth ++ list_ascii_of_string "     " ++ prop_text (fst t) ts p).
    destruct l1 as [|q l1]; [exists [], (flat_map g l2); reflexivity|].
    exists (prop_text (fst t) ts q ++ flat_map g l1 ++ line_end ++ indent depth ++ list_ascii_of_string "     "), (flat_map g l2).
    cbn [app props_text]. fold g. rewrite flat_map_app. cbn [flat_map]. unfold g at 2. rewrite <- !app_assoc. reflexivity. }
  destruct L as (b & a & L).
  exists (line_end ++ indent depth ++ list_ascii_of_string "<tree " ++ list_ascii_of_string name ++ b),
    (a ++ (if existsb is_tree (order name) then line_end ++ indent depth else []) ++ [">"%char]).
  rewrite <- (app_nil_r (tree_dump_1 _ _ _ _)), case_text_eq, T, L, R, <- !app_assoc. reflexivity.
Qed.
