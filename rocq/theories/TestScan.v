(** A checker for texts of token sequences, used in the examples. *)
From Coq Require Import ZArith List String Ascii Bool Lia Arith.
From Verif Require Import Lexer SpecLexer SpecScan LexerFacts LexerFacts2 LexerFacts3 ScanFacts.
Import ListNotations.
Local Open Scope string_scope.
Local Open Scope list_scope.

Section Check.
Variable tn : list ascii -> bool.

Definition nameb (x : list ascii) : bool := match x with c :: v => is_L c && forallb is_LD v | [] => false end.
Definition name_endsb (s : list ascii) : bool := match s with c :: _ => negb (is_LD c) | [] => true end.
Definition number_endsb (s : list ascii) : bool :=
  match s with c :: s => negb (is_D c) && negb (Ascii.eqb c "." && match s with d :: _ => is_D d | [] => false end) | [] => true end.
Definition specialb (x : list ascii) : bool := existsb (String.eqb (string_of_list_ascii x)) ["__attribute__"; "__asm"; "__asm__"; "L"].
Definition token_eqb (a b : token) : bool :=
  match a, b with KW x, KW y => String.eqb x y | PUNCT x, PUNCT y => Ascii.eqb x y | _, _ => false end.
Definition text_eqb (a b : list ascii) : bool := if list_eq_dec ascii_dec a b then true else false.
Definition spelledb (t : token) (u rest : list ascii) : bool :=
  match t with
  | PUNCT _ => existsb (fun p => let '(w, t', bad) := p in token_eqb t t' && text_eqb (txt w) u &&
      match rest with c :: _ => negb (existsb (Ascii.eqb c) (txt bad)) | [] => true end) symbols
  | KW k => existsb (fun p => let '(w, t', bad) := p in token_eqb t t' && text_eqb (txt w) u &&
      match rest with c :: _ => negb (existsb (Ascii.eqb c) (txt bad)) | [] => true end) symbols ||
      (nameb u && match entry u with Some (Some k') => String.eqb k k' | _ => false end && name_endsb rest)
  | IDENTIFIER x => text_eqb x u && nameb u && negb (specialb u) && match entry u with None => true | _ => false end && negb (tn u) && name_endsb rest
  | TYPE_NAME x => text_eqb x u && nameb u && negb (specialb u) && match entry u with None => true | _ => false end && tn u && name_endsb rest
  | INTEGER z => match u with
      | c :: ds => if Ascii.eqb c "-" then negb (text_eqb ds []) && forallb is_D ds && (digits_value 10 ds =? - z)%Z && number_endsb rest && name_endsb rest
                   else forallb is_D u && (digits_value 10 u =? z)%Z && number_endsb rest && name_endsb rest
      | [] => false end
  | _ => false
  end.
(** Tokens with their spellings and the white space after them. *)
Fixpoint text_of (l : list (token * list ascii * list ascii)) : list ascii :=
  match l with [] => [] | (_, u, w) :: l => u ++ w ++ text_of l end.
Fixpoint laid (tag : bool) (l : list (token * list ascii * list ascii)) : bool :=
  match l with
  | [] => true
  | (t, u, w) :: l' =>
      forallb (fun c => existsb (Ascii.eqb c) white) w &&
      (if tag then match t with
         | IDENTIFIER x => text_eqb x u && nameb u && name_endsb (w ++ text_of l')
         | PUNCT c => Ascii.eqb c "{" && text_eqb u ["{"%char]
         | _ => false end
       else spelledb t u (w ++ text_of l')) &&
      laid (if tag then false else tag_word t) l'
  end.

Lemma text_eqb_ok a b : text_eqb a b = true -> a = b.
Proof. unfold text_eqb. destruct (list_eq_dec ascii_dec a b); [auto|discriminate]. Qed.
Lemma nameb_ok x : nameb x = true -> name x.
Proof. destruct x as [|c v]; [discriminate|]. cbn. rewrite andb_true_iff. intros [H1 H2]. apply name_iff. eauto. Qed.
Lemma name_endsb_ok s : name_endsb s = true -> name_ends s.
Proof. destruct s as [|c s]; [exact (fun _ => I)|]. cbn. rewrite negb_true_iff. intros H Hc. apply name_char_iff in Hc. congruence. Qed.
Lemma number_endsb_ok s : number_endsb s = true -> number_ends s.
Proof.
  destruct s as [|c s]; [exact (fun _ => I)|]. cbn. rewrite andb_true_iff, !negb_true_iff. intros [H1 H2].
  split; [rewrite decimal_digit_iff; congruence|]. intros ->. destruct s; [exact I|]. rewrite decimal_digit_iff. cbn in H2. congruence.
Qed.
Lemma specialb_ok x : specialb x = false -> ~ special x.
Proof. unfold specialb, special. intros H I. assert (existsb (String.eqb (string_of_list_ascii x)) ["__attribute__"; "__asm"; "__asm__"; "L"] = true); [|congruence].
  apply existsb_exists. eexists. split; [exact I|]. apply String.eqb_refl. Qed.
Lemma not_nextb_ok bad rest : match rest with c :: _ => negb (existsb (Ascii.eqb c) (txt bad)) | [] => true end = true -> not_next bad rest.
Proof.
  destruct rest as [|c rest]; [exact (fun _ => I)|]. cbn. rewrite negb_true_iff. intros H I. assert (existsb (Ascii.eqb c) (txt bad) = true); [|congruence].
  apply existsb_exists. exists c. split; [exact I|apply Ascii.eqb_refl].
Qed.
Lemma numeral_ok ds : ds <> [] -> forallb is_D ds = true -> numeral 10 ds (digits_value 10 ds).
Proof. intros. apply (numeral_intro 10 is_D D_digit_is); assumption. Qed.
Lemma token_eqb_ok a b : token_eqb a b = true -> a = b.
Proof. destruct a, b; cbn; try discriminate; intros H; [apply String.eqb_eq in H|apply Ascii.eqb_eq in H]; congruence. Qed.

Lemma spelledb_ok t u rest : spelledb t u rest = true -> spelled tn t u rest.
Proof.
  assert (Sy : existsb (fun p => let '(w, t', bad) := p in token_eqb t t' && text_eqb (txt w) u &&
      match rest with c :: _ => negb (existsb (Ascii.eqb c) (txt bad)) | [] => true end) symbols = true -> spelled tn t u rest).
  { intros H. apply existsb_exists in H as ([[w t'] bad] & I & H). rewrite !andb_true_iff in H. destruct H as [[H1 H2] H3].
    apply token_eqb_ok in H1 as <-. apply text_eqb_ok in H2 as <-. apply (sp_symbol tn w t bad rest I). apply not_nextb_ok, H3. }
  destruct t; intros H; try discriminate H.
  - cbn [spelledb] in H. apply orb_true_iff in H as [H|H]; [exact (Sy H)|]. rewrite !andb_true_iff in H. destruct H as [[H1 H2] H3].
    destruct (entry u) as [[k'|]|] eqn:En; try discriminate. apply String.eqb_eq in H2 as <-. apply sp_keyword; [apply nameb_ok, H1|exact En|apply name_endsb_ok, H3].
  - apply Sy. exact H.
  - cbn [spelledb] in H. rewrite !andb_true_iff, !negb_true_iff in H. destruct H as [[[[[H1 H2] H3] H4] H5] H6]. apply text_eqb_ok in H1 as ->.
    destruct (entry u) eqn:En; [discriminate|]. apply sp_name; [apply nameb_ok, H2|apply specialb_ok, H3|exact En|exact H5|apply name_endsb_ok, H6].
  - cbn [spelledb] in H. rewrite !andb_true_iff, !negb_true_iff in H. destruct H as [[[[[H1 H2] H3] H4] H5] H6]. apply text_eqb_ok in H1 as ->.
    destruct (entry u) eqn:En; [discriminate|]. apply sp_type; [apply nameb_ok, H2|apply specialb_ok, H3|exact En|exact H5|apply name_endsb_ok, H6].
  - cbn [spelledb] in H. destruct u as [|c ds]; [discriminate|]. destruct (Ascii.eqb c "-") eqn:Em.
    + apply Ascii.eqb_eq in Em as ->. rewrite !andb_true_iff, negb_true_iff, Z.eqb_eq in H. destruct H as [[[[H1 H2] H3] H4] H5].
      assert (N := numeral_ok ds). rewrite H3 in N. rewrite <- (Z.opp_involutive z) at 1. apply sp_negative; [apply N|apply number_endsb_ok, H4|apply name_endsb_ok, H5].
      * intros ->. discriminate H1.
      * exact H2.
    + rewrite !andb_true_iff, Z.eqb_eq in H. destruct H as [[[H1 H2] H3] H4]. assert (N := numeral_ok (c :: ds)). rewrite H2 in N.
      apply sp_decimal; [apply N; [discriminate|exact H1]|apply number_endsb_ok, H3|apply name_endsb_ok, H4].
Qed.
Lemma writes_white tag w l s : forallb (fun c => existsb (Ascii.eqb c) white) w = true -> writes tn tag l s -> writes tn tag l (w ++ s).
Proof.
  induction w as [|c w IH]; cbn [forallb app]; [auto|]. rewrite andb_true_iff. intros [H1 H2] H. constructor; [apply in_chars, H1|auto].
Qed.
Lemma laid_ok l : forall tag, laid tag l = true -> writes tn tag (map (fun p => fst (fst p)) l) (text_of l).
Proof.
  induction l as [|[[t u] w] l IH]; intros tag H; [constructor|]. cbn [laid] in H. rewrite !andb_true_iff in H. destruct H as [[Hw Ht] Hl].
  cbn [map text_of fst]. destruct tag.
  - destruct t; try discriminate.
    + apply andb_true_iff in Ht as [Hc Hu]. apply Ascii.eqb_eq in Hc as ->. apply text_eqb_ok in Hu as ->. apply wr_brace. apply writes_white; [exact Hw|auto].
    + rewrite !andb_true_iff in Ht. destruct Ht as [[H1 H2] H3]. apply text_eqb_ok in H1 as ->. apply wr_tag; [apply nameb_ok, H2|apply name_endsb_ok, H3|].
      apply writes_white; [exact Hw|auto].
  - apply wr_token; [apply spelledb_ok, Ht|]. apply writes_white; [exact Hw|auto].
Qed.
End Check.

(** Examples are written as lists of items: a token with its spelling, and [sp] for a blank after it. *)
Definition sy (w : string) (t : token) : token * list ascii * list ascii := (t, txt w, []).
Definition kw (w k : string) : token * list ascii * list ascii := (KW k, txt w, []).
Definition pu (c : ascii) : token * list ascii * list ascii := (PUNCT c, [c], []).
Definition nm (x : string) : token * list ascii * list ascii := (IDENTIFIER (txt x), txt x, []).
Definition ty (x : string) : token * list ascii * list ascii := (TYPE_NAME (txt x), txt x, []).
Definition nu (z : Z) : token * list ascii * list ascii := (INTEGER z, print_integer z, []).
Definition sp (i : token * list ascii * list ascii) : token * list ascii * list ascii := let '(t, u, w) := i in (t, u, " "%char :: w).
