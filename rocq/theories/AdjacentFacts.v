(** Which tokens can stand next to each other in an input the parsers accept. *)
From Coq Require Import ZArith NArith List String Ascii Bool Lia.
From Verif Require Import CInt Tree Lexer Grammar LR GrammarTables ParserFacts SpecParser.
Import ListNotations.
Local Open Scope string_scope.
Local Open Scope nat_scope.
Local Open Scope list_scope.

Definition lasts_of (T : target) := match T with REPL_T => repl_lasts | CSCRIPT_T => cscript_lasts end.
Definition nexts_of (T : target) := match T with REPL_T => repl_nexts | CSCRIPT_T => cscript_nexts end.

Section Adjacent.
Variable T : target.

Definition num (X : sym) : N := symnum (terminals_of T) X.
Definition firstb (X : sym) : N := firstof (terminals_of T) (firsts_of T) X.
Definition lastb (X : sym) : N :=
  match X with NT a => nth (N.to_nat (nt_num a)) (lasts_of T) 0%N | _ => N.shiftl 1 (num X) end.
Definition nextb (a : N) : N := nth (N.to_nat a) (nexts_of T) 0%N.

(** Tokens that can be adjacent. *)
Definition pair (a b : token) : Prop := N.testbit (nextb (num (class a))) (num (class b)) = true.
Definition known (t : token) : Prop := (num (class t) < 100)%N.

Fixpoint chk (Xs : list sym) : bool :=
  match Xs with
  | X :: (Y :: _) as l =>
      forallb (fun a => implb (N.testbit (lastb X) (N.of_nat a)) (subset (firstb Y) (nextb (N.of_nat a)))) (seq 0 100) && chk l
  | _ => true
  end.
Definition check_pair (q : production) : bool :=
  chk (p_rhs q) && forallb (fun X => N.ltb (lastb X) (2 ^ 100)) (p_rhs q) &&
  match rev (p_rhs q) with X :: _ => subset (lastb X) (lastb (NT (p_lhs q))) | [] => false end.
End Adjacent.

Lemma pairs_checked T : forallb (check_pair T) (productions T) = true.
Proof. destruct T; vm_compute; reflexivity. Qed.

Section Facts.
Variable T : target.

Lemma lastb_small X a : (lastb T X < 2 ^ 100)%N -> N.testbit (lastb T X) a = true -> (a < 100)%N.
Proof.
  intros H Hb. destruct (N.ltb_spec a 100); [assumption|]. exfalso.
  destruct (N.eq_dec (lastb T X) 0) as [E|E]; [rewrite E, N.bits_0 in Hb; discriminate|].
  rewrite N.bits_above_log2 in Hb; [discriminate|]. apply N.log2_lt_pow2 in H; lia.
Qed.

Lemma chk_pair X Y l a b : chk T (X :: Y :: l) = true -> (lastb T X < 2 ^ 100)%N -> N.testbit (lastb T X) a = true -> N.testbit (firstb T Y) b = true ->
  N.testbit (nextb T a) b = true.
Proof.
  intros H Hs Ha Hb. cbn [chk] in H. apply andb_true_iff in H as [H _]. rewrite forallb_forall in H.
  pose proof (lastb_small X a Hs Ha) as Hlt.
  assert (Hin : In (N.to_nat a) (seq 0 100)) by (apply in_seq; lia). specialize (H _ Hin). rewrite N2Nat.id, Ha in H. cbn [implb] in H.
  exact (subset_bit _ _ _ H Hb).
Qed.

(** Adjacent tokens of a list satisfy a relation. *)
Inductive linked : list token -> Prop :=
| linked_nil : linked []
| linked_one t : linked [t]
| linked_cons a b l : pair T a b -> linked (b :: l) -> linked (a :: b :: l).

Lemma linked_app u a b v : linked (u ++ [a]) -> linked (b :: v) -> pair T a b -> linked (u ++ a :: b :: v).
Proof.
  induction u as [|x u IH]; simpl; intros H Hv Hp; [constructor; assumption|].
  destruct u as [|z u]; simpl in *; inversion H; subst; constructor; auto.
Qed.

Lemma linked_split u a b v : linked (u ++ a :: b :: v) -> pair T a b.
Proof.
  induction u as [|x u IH]; intros H; [inversion H; assumption|].
  destruct u as [|y u]; simpl in *; inversion H; subst; auto.
Qed.

(** What is derived: a first and a last token, and links between them. *)
Definition spans (X Y : sym) (i r : list token) : Prop :=
  exists u a, i = u ++ a :: r /\ linked (u ++ [a]) /\ Forall (known T) (u ++ [a]) /\
    N.testbit (firstb T X) (lanum (terminals_of T) (next i)) = true /\ N.testbit (lastb T Y) (num T (class a)) = true.

Lemma lastb_token t : N.testbit (lastb T (class t)) (num T (class t)) = true.
Proof.
  unfold lastb. destruct (class t) eqn:H; try (exfalso; exact (class_not_nt _ _ H));
  rewrite N.shiftl_spec_high' by lia; replace (_ - _)%N with 0%N by lia; reflexivity.
Qed.

Lemma last_default {A} (x : A) l : forall a b, last (x :: l) a = last (x :: l) b.
Proof.
  revert x. induction l as [|y l IH]; intros x a b; [reflexivity|].
  change (last (y :: l) a = last (y :: l) b). apply IH.
Qed.

Lemma prod_first q : In q (productions T) -> match p_rhs q with X :: _ => subset (firstb T X) (firstb T (NT (p_lhs q))) | [] => false end = true.
Proof.
  intros Hq. pose proof (ck_firsts T (terminals_of T) (states_of T) (firsts_of T) (checked T)) as Cf. unfold check_firsts in Cf.
  rewrite forallb_forall in Cf. exact (Cf q Hq).
Qed.

Lemma prod_pairs q : In q (productions T) -> chk T (p_rhs q) = true /\ Forall (fun X => (lastb T X < 2 ^ 100)%N) (p_rhs q) /\
  match rev (p_rhs q) with X :: _ => subset (lastb T X) (lastb T (NT (p_lhs q))) | [] => false end = true.
Proof.
  intros Hq. pose proof (proj1 (forallb_forall _ _) (pairs_checked T) q Hq) as C. unfold check_pair in C.
  apply andb_true_iff in C as [C C3]. apply andb_true_iff in C as [C1 C2]. split; [exact C1|]. split; [|exact C3].
  apply Forall_forall. intros X HX. rewrite forallb_forall in C2. apply N.ltb_lt. exact (C2 X HX).
Qed.

Lemma derives_spans :
  (forall X i r d, derives T X i r d -> ((exists a, X = NT a) \/ (lastb T X < 2 ^ 100)%N) -> spans X X i r) /\
  (forall Xs i r l, derives_list T Xs i r l -> chk T Xs = true -> Forall (fun X => (lastb T X < 2 ^ 100)%N) Xs ->
     match Xs with [] => i = r | X :: _ => spans X (last Xs X) i r end).
Proof.
  apply derives_mutind.
  - intros t i Hs. exists [], t. split; [reflexivity|]. split; [constructor|].
    assert (K : (num T (class t) < 100)%N).
    { destruct Hs as [[a E]|E]; [exfalso; exact (class_not_nt _ _ E)|]. exact (lastb_small _ _ E (lastb_token t)). }
    split; [repeat constructor; exact K|]. split; [|apply lastb_token].
    exact (firstof_token (terminals_of T) (firsts_of T) t).
  - intros q i r l Hq Hl IH Hb _.
    destruct (prod_pairs q Hq) as [C1 [F C3]]. specialize (IH C1 F). pose proof (prod_first q Hq) as Cf.
    destruct (p_rhs q) as [|X Xs] eqn:E; [discriminate Cf|]. destruct IH as [u [a [H1 [H2 [H3 [H4 H5]]]]]].
    exists u, a. split; [exact H1|]. split; [exact H2|]. split; [exact H3|]. split; [exact (subset_bit _ _ _ Cf H4)|].
    destruct (rev (X :: Xs)) as [|Y Ys] eqn:R; [discriminate C3|].
    assert (L : last (X :: Xs) X = Y).
    { rewrite <- (rev_involutive (X :: Xs)), R. simpl. rewrite last_last. reflexivity. }
    rewrite L in H5. exact (subset_bit _ _ _ C3 H5).
  - intros i _ _. reflexivity.
  - intros X Xs i j r d l Hd IH1 Hl IH2 Hc Hs. inversion Hs as [|? ? Hx Hxs]; subst.
    specialize (IH1 (or_intror Hx)).
    destruct Xs as [|Y Xs].
    + inversion Hl; subst. exact IH1.
    + assert (Hc' : chk T (Y :: Xs) = true) by (cbn [chk] in Hc; apply andb_true_iff in Hc as [_ Hc]; exact Hc).
      specialize (IH2 Hc' Hxs). destruct IH1 as [u [a [H1 [H2 [H3 [H4 H5]]]]]]. destruct IH2 as [v [b [G1 [G2 [G3 [G4 G5]]]]]].
      assert (Hv : exists c w, v ++ [b] = c :: w /\ next j = Some (class c)).
      { rewrite G1. destruct v as [|c v]; [exists b, []|exists c, (v ++ [b])]; split; reflexivity. }
      destruct Hv as [c [w [Ec En]]].
      exists (u ++ a :: v), b. split; [rewrite H1, G1, <- app_assoc; reflexivity|].
      replace ((u ++ a :: v) ++ [b]) with (u ++ a :: c :: w) by (rewrite <- Ec, <- app_assoc; reflexivity).
      split; [|split; [|split]].
      * apply linked_app; [exact H2|rewrite <- Ec; exact G2|]. unfold pair. rewrite En in G4. cbn [lanum] in G4.
        exact (chk_pair X Y Xs _ _ Hc Hx H5 G4).
      * rewrite Ec in G3. replace (u ++ a :: c :: w) with ((u ++ [a]) ++ c :: w) by (rewrite <- app_assoc; reflexivity).
        apply Forall_app. split; assumption.
      * exact H4.
      * change (last (X :: Y :: Xs) X) with (last (Y :: Xs) X). rewrite (last_default Y Xs X Y). exact G5.
Qed.

Theorem accepted_links n w t m : parses T n w t m ->
  linked w /\ Forall (known T) w /\ N.testbit (firstb T (NT (translation_unit T))) (lanum (terminals_of T) (next w)) = true.
Proof.
  intros [d [H _]]. destruct (proj1 derives_spans _ _ _ _ H) as [u [a [H1 [H2 [H3 [H4 _]]]]]].
  - left. eexists. reflexivity.
  - split; [|split]; [rewrite H1; assumption|rewrite H1; assumption|exact H4].
Qed.

Lemma index_nth X l : forall k, (index X l k < 999 -> nth_error l (N.to_nat (index X l k - k)) = Some X)%N.
Proof.
  induction l as [|x l IH]; intros k H; simpl in *; [lia|].
  destruct (sym_eqb X x) eqn:E.
  - apply sym_eqb_eq in E. subst. rewrite N.sub_diag. reflexivity.
  - specialize (IH (N.succ k) H). pose proof (index_ge X l (N.succ k)) as G.
    replace (N.to_nat (index X l (N.succ k) - k)) with (S (N.to_nat (index X l (N.succ k) - N.succ k))) by lia. exact IH.
Qed.

Lemma known_terminal t : known T t -> In (class t) (terminals_of T).
Proof.
  unfold known, num. intros H. destruct (class t) as [c|k|a] eqn:E; [| |exfalso; exact (class_not_nt _ _ E)];
  unfold symnum in H; eapply nth_error_In; apply (index_nth _ (terminals_of T) 1); lia.
Qed.

(** The tokens before and after a token. *)
Definition before (X : sym) : list sym := filter (fun Y => N.testbit (nextb T (num T Y)) (num T X)) (terminals_of T).
Definition after (X : sym) : list sym := filter (fun Y => N.testbit (nextb T (num T X)) (num T Y)) (terminals_of T).

Theorem accepted_before n w t m u a b v : parses T n w t m -> w = u ++ a :: b :: v -> In (class a) (before (class b)).
Proof.
  intros H ->. destruct (accepted_links _ _ _ _ H) as [L [K _]]. apply filter_In. split.
  - apply known_terminal. rewrite Forall_forall in K. apply K. apply in_or_app. right. left. reflexivity.
  - exact (linked_split _ _ _ _ L).
Qed.
Theorem accepted_after n w t m u a b v : parses T n w t m -> w = u ++ a :: b :: v -> In (class b) (after (class a)).
Proof.
  intros H ->. destruct (accepted_links _ _ _ _ H) as [L [K _]]. apply filter_In. split.
  - apply known_terminal. rewrite Forall_forall in K. apply K. apply in_or_app. right. right. left. reflexivity.
  - exact (linked_split _ _ _ _ L).
Qed.
Theorem accepted_terminal n w t m a : parses T n w t m -> In a w -> In (class a) (terminals_of T).
Proof.
  intros H Ha. destruct (accepted_links _ _ _ _ H) as [_ [K _]]. apply known_terminal. rewrite Forall_forall in K. exact (K a Ha).
Qed.
Theorem accepted_start n w t m a v : parses T n w t m -> w = a :: v -> N.testbit (firstb T (NT (translation_unit T))) (num T (class a)) = true.
Proof. intros H ->. exact (proj2 (proj2 (accepted_links _ _ _ _ H))). Qed.

Theorem accepted_end n w t m u a : parses T n w t m -> w = u ++ [a] -> N.testbit (lastb T (NT (translation_unit T))) (num T (class a)) = true.
Proof.
  intros [d [H _]] E. destruct (proj1 derives_spans _ _ _ _ H) as [u' [a' [H1 [_ [_ [_ H5]]]]]]; [left; eexists; reflexivity|].
  rewrite E in H1. apply app_inj_tail in H1 as [_ <-]. exact H5.
Qed.

(** * What follows a token in the derivation *)

(** In every production the terminal is followed by the nonterminal. *)
Fixpoint followed (c : sym) (Y : nt) (Xs : list sym) : bool :=
  match Xs with
  | [] => true
  | X :: l => (if sym_eqb X c then match l with NT a :: _ => N.eqb (nt_num a) (nt_num Y) | _ => false end else true) && followed c Y l
  end.

Lemma derives_app :
  (forall X i r d, derives T X i r d -> exists u, i = u ++ r) /\
  (forall Xs i r l, derives_list T Xs i r l -> exists u, i = u ++ r).
Proof.
  apply derives_mutind.
  - intros t i. exists [t]. reflexivity.
  - intros q i r l _ _ H _. exact H.
  - intros i. exists []. reflexivity.
  - intros X Xs i j r d l _ [u ->] _ [v ->]. exists (u ++ v). rewrite app_assoc. reflexivity.
Qed.

Lemma occurs c Y : (forall q, In q (productions T) -> followed c Y (p_rhs q) = true) ->
  (forall X i r d, derives T X i r d -> X <> c -> forall u t v, i = u ++ t :: v -> List.length r < List.length (t :: v) -> class t = c ->
     exists r' d', derives T (NT Y) v r' d') /\
  (forall Xs i r l, derives_list T Xs i r l -> followed c Y Xs = true -> forall u t v, i = u ++ t :: v -> List.length r < List.length (t :: v) -> class t = c ->
     exists r' d', derives T (NT Y) v r' d').
Proof.
  intros HF. apply derives_mutind.
  - intros t i Hne u t' v E Hl Ec. destruct u as [|x u]; simpl in E; injection E as -> ->; [congruence|].
    exfalso. rewrite app_length in Hl. simpl in Hl. lia.
  - intros q i r l Hq _ IH _ _. exact (IH (HF q Hq)).
  - intros i _ u t v -> Hl _. exfalso. rewrite app_length in Hl. lia.
  - intros X Xs i j r d l Hd IH1 Hl IH2 Hf u t v E Hlen Ec.
    cbn [followed] in Hf. apply andb_true_iff in Hf as [F1 F2].
    destruct (le_lt_dec (List.length (t :: v)) (List.length j)) as [L|L].
    + (* in the rest *)
      destruct (proj1 derives_app _ _ _ _ Hd) as [w ->].
      assert (exists w', j = w' ++ t :: v) as [w' Ej].
      { exists (skipn (List.length w) u).
        assert (Sj : skipn (List.length w) (w ++ j) = j) by (rewrite skipn_app, skipn_all, Nat.sub_diag; reflexivity).
        rewrite <- Sj at 1. rewrite E, skipn_app. assert (Lu : List.length w <= List.length u).
        { apply (f_equal (@List.length _)) in E. rewrite !app_length in E. simpl in *. lia. }
        replace (List.length w - List.length u) with 0 by lia. reflexivity. }
      exact (IH2 F2 w' t v Ej Hlen Ec).
    + destruct (sym_eqb X c) eqn:Ex.
      * apply sym_eqb_eq in Ex. inversion Hd as [t' i'|q i' r' l' Hq]; subst; [|exfalso].
        -- destruct u as [|x u]; [|exfalso].
           ++ match goal with X : _ :: _ = [] ++ _ :: _ |- _ => simpl in X; injection X as -> -> end. destruct Xs as [|[|?|a] Xs]; try discriminate F1. apply N.eqb_eq in F1. apply nt_num_inj in F1. subst a.
              inversion Hl as [|? ? ? jj ? dd ll D1 D2]; subst. eauto.
           ++ match goal with X : _ :: _ = (_ :: _) ++ _ |- _ => simpl in X; injection X as _ -> end. rewrite app_length in L. simpl in *. lia.
        -- match goal with X : NT _ = class t |- _ => symmetry in X; exact (class_not_nt _ _ X) end.
      * exact (IH1 ltac:(intros ->; rewrite (proj2 (sym_eqb_eq c c) eq_refl) in Ex; discriminate) u t v E L Ec).
Qed.

(** A parenthesis at the start of a unary expression is not that of a cast. *)
Definition no_cast (a : nt) : bool := existsb (fun b => N.eqb (nt_num a) (nt_num b)) [primary_expression; postfix_expression; unary_expression].
Definition starts_ok (Xs : list sym) : bool :=
  match Xs with
  | C c :: l => if Ascii.eqb c "(" then match l with NT b :: _ => N.eqb (nt_num b) (nt_num expression) | _ => false end else true
  | NT a :: _ => no_cast a
  | _ => true
  end.

Lemma paren_start :
  (forall q, In q (productions T) -> no_cast (p_lhs q) = true -> starts_ok (p_rhs q) = true) ->
  (forall X i r d, derives T X i r d -> (exists a, X = NT a /\ no_cast a = true) -> forall v, i = PUNCT "(" :: v ->
     N.testbit (firstb T (NT expression)) (lanum (terminals_of T) (next v)) = true) /\
  (forall Xs i r l, derives_list T Xs i r l -> starts_ok Xs = true -> Xs <> [] -> forall v, i = PUNCT "(" :: v ->
     N.testbit (firstb T (NT expression)) (lanum (terminals_of T) (next v)) = true).
Proof.
  intros HC. apply derives_mutind.
  - intros t i [a [E _]]. exfalso. exact (class_not_nt _ _ E).
  - intros q i r l Hq Hl IH _ [a [E Ha]]. injection E as <-. apply IH; [exact (HC q Hq Ha)|]. intros E.
    pose proof (prod_first q Hq) as Cf. rewrite E in Cf. discriminate Cf.
  - intros i _ H. congruence.
  - intros X Xs i j r d l Hd IH1 Hl IH2 Hs _ v E. destruct X as [c|k|a]; cbn [starts_ok] in Hs.
    + inversion Hd as [t' i' Ec|]; subst. match goal with X : _ :: _ = _ :: _ |- _ => injection X as -> -> end. simpl in Ec. injection Ec as <-.
      rewrite Ascii.eqb_refl in Hs.
      destruct Xs as [|[|?|b] Xs]; try discriminate Hs. apply N.eqb_eq in Hs. apply nt_num_inj in Hs. subst b.
      inversion Hl as [|? ? ? jj ? dd ll D1 D2]; subst. exact (proj1 (derives_first T _ _ _ (checked T)) _ _ _ _ D1).
    + inversion Hd as [t' i' Ec|]; subst. match goal with X : _ :: _ = _ :: _ |- _ => injection X as -> -> end. discriminate Ec.
    + exact (IH1 ltac:(exists a; auto) v E).
Qed.

Lemma starts_checked q : In q (productions T) -> no_cast (p_lhs q) = true -> starts_ok (p_rhs q) = true.
Proof.
  intros Hq Hn. assert (F : forallb (fun q => implb (no_cast (p_lhs q)) (starts_ok (p_rhs q))) (productions T) = true) by (destruct T; vm_compute; reflexivity).
  rewrite forallb_forall in F. specialize (F q Hq). rewrite Hn in F. exact F.
Qed.

Lemma followed_checked c : c = "!"%char \/ c = "~"%char -> forall q, In q (productions T) -> followed (C c) unary_expression (p_rhs q) = true.
Proof.
  intros Hc. apply forallb_forall. destruct Hc as [-> | ->]; destruct T; vm_compute; reflexivity.
Qed.

Theorem not_before_cast n w t m u c b v : parses T n w t m -> w = u ++ PUNCT c :: PUNCT "(" :: b :: v -> c = "!"%char \/ c = "~"%char ->
  N.testbit (firstb T (NT expression)) (num T (class b)) = true.
Proof.
  intros [d [Hd _]] E Hc.
  destruct (proj1 (occurs (C c) unary_expression (followed_checked c Hc)) _ _ _ _ Hd) with (u := u) (t := PUNCT c) (v := PUNCT "(" :: b :: v) as [r' [d' D]];
    [discriminate|exact E|simpl; lia|reflexivity|].
  exact (proj1 (paren_start starts_checked) _ _ _ _ D ltac:(exists unary_expression; auto) _ eq_refl).
Qed.
End Facts.

(** * The statements of PropsParser.v *)

Lemma first_in T X Y l : In Y (terminals_of T) -> N.testbit (firstb T X) (num T Y) = true ->
  filter (fun Y => N.testbit (firstb T X) (num T Y)) (terminals_of T) = l -> In Y l.
Proof. intros H1 H2 <-. apply filter_In. auto. Qed.
Lemma only T n w t m : parses T n w t m -> parses_only T n w t m.
Proof. intros H. split; [exact H|]. intros t' m' H'. exact (one_tree T n w t' t m' m H' H). Qed.

Lemma rev_case_of {A} (l : list A) : l = [] \/ exists l' a, l = l' ++ [a].
Proof. destruct l as [|x l] using rev_ind; [left; reflexivity|right; eauto]. Qed.
Lemma sign_between T n w t m u c v : parses T n w t m -> w = u ++ PUNCT c :: v -> c = "-"%char \/ c = "+"%char ->
  (exists u' a, u = u' ++ [a] /\ In (class a) operand_ends) /\ (exists b v', v = b :: v' /\ In (class b) operand_starts).
Proof.
  intros H E Hc. split.
  - destruct (rev_case_of u) as [-> | [u' [a ->]]].
    + exfalso. pose proof (accepted_start T n w t m _ _ H E) as F. destruct Hc as [-> | ->]; destruct T; vm_compute in F; discriminate F.
    + exists u', a. split; [reflexivity|]. rewrite <- app_assoc in E. pose proof (accepted_before T n w t m _ _ _ _ H E) as B.
      destruct Hc as [-> | ->]; destruct T; vm_compute in B; exact B.
  - destruct v as [|b v].
    + exfalso. pose proof (accepted_end T n w t m _ _ H E) as F. destruct Hc as [-> | ->]; destruct T; vm_compute in F; discriminate F.
    + exists b, v. split; [reflexivity|]. pose proof (accepted_after T n w t m _ _ _ _ H E) as B.
      destruct Hc as [-> | ->]; destruct T; vm_compute in B; exact B.
Qed.
Lemma equals_after T n w t m u v : parses T n w t m -> w = u ++ PUNCT "=" :: v -> exists u' a, u = u' ++ [a] /\ In (class a) operand_ends.
Proof.
  intros H E. destruct (rev_case_of u) as [-> | [u' [a ->]]].
  - exfalso. pose proof (accepted_start T n w t m _ _ H E) as F. destruct T; vm_compute in F; discriminate F.
  - exists u', a. split; [reflexivity|]. rewrite <- app_assoc in E. pose proof (accepted_before T n w t m _ _ _ _ H E) as B.
    destruct T; vm_compute in B; exact B.
Qed.
Lemma literal_literal T u a b v : In (class a) literals -> In (class b) literals -> syntax_error T (u ++ a :: b :: v).
Proof.
  intros Ha Hb n t m H. pose proof (accepted_after T n _ t m _ _ _ _ H eq_refl) as B.
  destruct Ha as [Ha | [Ha | [Ha | []]]]; rewrite <- Ha in B; destruct Hb as [Hb | [Hb | [Hb | []]]]; rewrite <- Hb in B; clear Ha Hb;
  destruct T; vm_compute in B; repeat (destruct B as [B|B]; [discriminate B|]); exact B.
Qed.
Lemma name_literal u x b v : In (class b) literals -> syntax_error CSCRIPT_T (u ++ IDENTIFIER x :: b :: v).
Proof.
  intros Hb n t m H. pose proof (accepted_after CSCRIPT_T n _ t m _ _ _ _ H eq_refl) as B. change (class (IDENTIFIER x)) with (K "IDENTIFIER") in B.
  destruct Hb as [Hb | [Hb | [Hb | []]]]; rewrite <- Hb in B; clear Hb; vm_compute in B; repeat (destruct B as [B|B]; [discriminate B|]); exact B.
Qed.
Lemma keyword_unused T w k : In k unused_keywords -> In (KW k) w -> syntax_error T w.
Proof.
  intros Hk Hw n t m H. pose proof (accepted_terminal T n w t m (KW k) H Hw) as B. simpl class in B.
  assert (F : existsb (sym_eqb (K k)) (terminals_of T) = true) by (apply existsb_exists; exists (K k); split; [exact B|apply sym_eqb_eq; reflexivity]).
  repeat (destruct Hk as [<-|Hk]; [destruct T; vm_compute in F; discriminate F|]). destruct Hk.
Qed.
Lemma else_after T n w t m u v : parses T n w t m -> w = u ++ KW "ELSE" :: v -> exists u' c, u = u' ++ [PUNCT c] /\ (c = ";"%char \/ c = "}"%char).
Proof.
  intros H E. destruct (rev_case_of u) as [-> | [u' [a ->]]].
  - exfalso. pose proof (accepted_start T n w t m _ _ H E) as F. destruct T; vm_compute in F; discriminate F.
  - rewrite <- app_assoc in E. pose proof (accepted_before T n w t m _ _ _ _ H E) as B. destruct a; destruct T; vm_compute in B;
      repeat (destruct B as [B|B]; [first [discriminate B | injection B as <-; eauto]|]); destruct B.
Qed.
Lemma prefix_paren T n w t m u c b v : parses T n w t m -> w = u ++ PUNCT c :: PUNCT "(" :: b :: v -> c = "!"%char \/ c = "~"%char ->
  In (class b) operand_starts.
Proof.
  intros H E Hc. pose proof (not_before_cast T n w t m u c b v H E Hc) as F.
  apply (first_in T (NT expression)); [|exact F|destruct T; vm_compute; reflexivity].
  apply (accepted_terminal T n w t m b H). rewrite E. apply in_or_app. right. right. right. left. reflexivity.
Qed.
