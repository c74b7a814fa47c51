(** Lemmas about the scanner model: printed integers, character and string literals. *)
From Coq Require Import ZArith NArith Nnat List String Ascii Bool Lia DecimalString DecimalZ.
From Verif Require Import Lexer SpecLexer LexerFacts.
Import ListNotations.
Local Open Scope string_scope.
Local Open Scope list_scope.

(** ** Printed integers *)
Lemma uint_D d : forallb is_D (list_ascii_of_string (NilEmpty.string_of_uint d)) = true.
Proof. induction d; cbn; auto. Qed.
Lemma uint_acc d : forall p, fold_left (fun v c => (10 * v + digit_value c)%Z) (list_ascii_of_string (NilEmpty.string_of_uint d)) (Z.pos p) =
  Z.pos (Pos.of_uint_acc d p).
Proof.
  induction d; intros p; cbn [NilEmpty.string_of_uint list_ascii_of_string fold_left Pos.of_uint_acc]; [reflexivity|..];
    rewrite <- IHd; f_equal; vm_compute (digit_value _); lia.
Qed.
Lemma uint_value d : digits_value 10 (list_ascii_of_string (NilEmpty.string_of_uint d)) = Z.of_uint d.
Proof.
  unfold digits_value, Z.of_uint. induction d; cbn [NilEmpty.string_of_uint list_ascii_of_string fold_left Pos.of_uint]; [reflexivity|exact IHd|..];
    exact (uint_acc d _).
Qed.
Lemma nz_uint d : exists ds, list_ascii_of_string (NilZero.string_of_uint d) = ds /\ ds <> [] /\ forallb is_D ds = true /\ digits_value 10 ds = Z.of_uint d.
Proof.
  eexists. split; [reflexivity|]. destruct d; try (split; [discriminate|]; split; [apply uint_D|apply uint_value]).
  split; [discriminate|]. split; reflexivity.
Qed.

(** A printed integer is a decimal numeral with a minus sign if it is negative. *)
Lemma print_numeral z : exists ds v, numeral 10 ds v /\
  (print_integer z = ds /\ v = z \/ print_integer z = "-"%char :: ds /\ (- v)%Z = z).
Proof.
  unfold print_integer. pose proof (of_to z) as Hz. destruct (Z.to_int z) as [d|d]; cbn in Hz |- *.
  - destruct (nz_uint d) as (ds & H & H1 & H2 & H3). exists ds, (digits_value 10 ds). split; [apply (numeral_intro 10 is_D D_digit_is); auto|].
    left. rewrite H. split; [reflexivity|congruence].
  - destruct (nz_uint d) as (ds & H & H1 & H2 & H3). exists ds, (digits_value 10 ds). split; [apply (numeral_intro 10 is_D D_digit_is); auto|].
    right. rewrite H. split; [reflexivity|congruence].
Qed.

Section Lex.
Variable T : target.
Variable tn : list ascii -> bool.
Notation init := (active T tn INITIAL).

Lemma lex_printed fuel st z rest : l_cond st = INITIAL -> number_ends rest -> ~ hex_follows rest ->
  yylex T tn (S fuel) st (print_integer z ++ rest) = Token (INTEGER z) st rest.
Proof.
  intros Hst He Hx. destruct (print_numeral z) as (ds & v & Hv & [[-> ->]|[-> <-]]).
  - apply lex_decimal; auto. tauto.
  - apply lex_negative; auto.
Qed.

(** ** Character literals *)
Definition part_re : re := Alt (Cat (Cls (Ascii.eqb bs)) (Cls is_any))
                    (Cls (fun c => negb (Ascii.eqb c bs || Ascii.eqb c sq || Ascii.eqb c nl))).
Lemma matches_part u : matches part_re u <-> exists p, part_ok p /\ u = part_text p.
Proof.
  unfold part_re. rewrite matches_alt, matches_cat, matches_cls. split.
  - intros [(a & b & -> & H1 & H2)|(c & -> & H)].
    + apply matches_char in H1 as ->. apply matches_cls in H2 as (c & -> & H2). exists (Escape c). split; [|reflexivity].
      cbn. intros ->. discriminate H2.
    + exists (Plain c). split; [|reflexivity]. cbn. rewrite negb_true_iff, !orb_false_iff, !Ascii.eqb_neq in H. tauto.
  - intros (p & Hp & ->). destruct p as [c|c]; cbn in Hp.
    + right. exists c. split; [reflexivity|]. rewrite negb_true_iff, !orb_false_iff, !Ascii.eqb_neq. tauto.
    + left. exists [bs], [c]. split; [reflexivity|]. split; [apply matches_char; reflexivity|].
      apply matches_cls. exists c. split; [reflexivity|]. unfold is_any. rewrite negb_true_iff, Ascii.eqb_neq. congruence.
Qed.
Lemma matches_parts u : matches (Star part_re) u <-> exists ps, Forall part_ok ps /\ u = flat_map part_text ps.
Proof.
  split.
  - remember (Star part_re) as r eqn:Hr. intros H. induction H; try discriminate Hr.
    + exists []. auto.
    + injection Hr as ->. apply matches_part in H as (p & Hp & ->). destruct IHmatches2 as (ps & Hps & ->); [reflexivity|].
      exists (p :: ps). split; [constructor; assumption|reflexivity].
  - intros (ps & Hps & ->). induction Hps as [|p ps Hp Hps IH]; [constructor|]. cbn. apply m_star; [apply matches_part; eauto|exact IH].
Qed.
Lemma matches_chars u : matches char_re u <-> exists ps, Forall part_ok ps /\ ps <> [] /\ (u = quoted ps \/ u = "L"%char :: quoted ps).
Proof.
  unfold char_re. rewrite matches_cat. split.
  - intros (a & b & -> & H1 & H2). apply matches_cat in H2 as (c & d & -> & H2 & H3). apply matches_char in H2 as ->.
    apply matches_cat in H3 as (e & f & -> & H3 & H4). apply matches_char in H4 as ->. unfold plus in H3. apply matches_cat in H3 as (g & h & -> & H3 & H4).
    apply matches_part in H3 as (p & Hp & ->). apply matches_parts in H4 as (ps & Hps & ->).
    exists (p :: ps). split; [constructor; assumption|]. split; [discriminate|]. unfold quoted. cbn [flat_map].
    apply matches_opt in H1 as [->|H1]; [auto|]. apply matches_char in H1 as ->. auto.
  - intros (ps & Hps & Hn & Hu). destruct ps as [|p ps]; [contradiction|]. inversion Hps as [|? ? Hp Hps']; subst.
    assert (Hq : matches (Cat (Cls (Ascii.eqb sq)) (Cat (plus part_re) (Cls (Ascii.eqb sq)))) (quoted (p :: ps))).
    { apply matches_cat. exists [sq], (flat_map part_text (p :: ps) ++ [sq]). split; [reflexivity|]. split; [apply matches_char; reflexivity|].
      constructor; [|apply matches_char; reflexivity]. cbn [flat_map]. constructor; [apply matches_part; eauto|apply matches_parts; eauto]. }
    destruct Hu as [->| ->].
    + exists [], (quoted (p :: ps)). split; [reflexivity|]. split; [apply matches_opt; auto|exact Hq].
    + exists ["L"%char], (quoted (p :: ps)). split; [reflexivity|]. split; [apply matches_opt; right; apply matches_char; reflexivity|exact Hq].
Qed.

Lemma parts_unique ps : forall qs x y, Forall part_ok ps -> Forall part_ok qs ->
  flat_map part_text ps ++ sq :: x = flat_map part_text qs ++ sq :: y -> ps = qs /\ x = y.
Proof.
  induction ps as [|p ps IH]; intros qs x y Hps Hqs H.
  - destruct qs as [|q qs]; cbn in H; [injection H as ->; auto|]. inversion Hqs as [|? ? Hq _]; subst.
    destruct q as [c|c]; cbn in H, Hq; injection H as H _; [|discriminate H]. subst c. tauto.
  - inversion Hps as [|? ? Hp Hps']; subst. destruct qs as [|q qs].
    + destruct p as [c|c]; cbn in H, Hp; injection H as H _; [|discriminate H]. subst c. tauto.
    + inversion Hqs as [|? ? Hq Hqs']; subst. cbn [flat_map] in H. rewrite <- !app_assoc in H.
      destruct p as [c|c], q as [d|d]; cbn in H, Hp, Hq.
      * injection H as -> H. destruct (IH qs x y Hps' Hqs' H) as [-> ->]. auto.
      * injection H as H _. subst c. tauto.
      * injection H as H _. subst d. tauto.
      * injection H as -> H. destruct (IH qs x y Hps' Hqs' H) as [-> ->]. auto.
Qed.

Definition char_rule : rule := mkrule [INITIAL] char_re (fun text st => match lex_char text with Some z => Emit (INTEGER z) st | None => LexErr end).

Lemma choose_quote s : choose init (sq :: s) = choose [char_rule; punct sq] (sq :: s).
Proof. rewrite choose_alive. f_equal. destruct T; reflexivity. Qed.
Lemma longest_char c s d : longest (Cls (Ascii.eqb c)) (d :: s) = if Ascii.eqb c d then Some 1%nat else None.
Proof.
  destruct (Ascii.eqb c d) eqn:H.
  - apply Ascii.eqb_eq in H as ->. apply (longest_app (Cls (Ascii.eqb d)) [d] s); [apply matches_char; reflexivity|].
    intros w w' Hw -> Hm. apply matches_char in Hm. destruct w; [contradiction|discriminate].
  - apply longest_no. intros w w' Hw Hm. apply matches_char in Hm as ->. injection Hw as -> _. rewrite Ascii.eqb_refl in H. discriminate.
Qed.

Lemma quoted_app ps rest : quoted ps ++ rest = sq :: flat_map part_text ps ++ sq :: rest.
Proof. unfold quoted. cbn. rewrite <- app_assoc. reflexivity. Qed.

Lemma longest_quoted ps rest : Forall part_ok ps -> ps <> [] -> longest char_re (quoted ps ++ rest) = Some (List.length (quoted ps)).
Proof.
  intros Hps Hn. apply longest_app; [apply matches_chars; eauto|]. intros w w' Hw -> Hm.
  apply matches_chars in Hm as (qs & Hqs & _ & [H|H]); [|discriminate H].
  rewrite quoted_app in H. unfold quoted in H. injection H as H.
  destruct (parts_unique ps qs w [] Hps Hqs H) as [_ ->]. contradiction.
Qed.

Lemma choose_quoted ps rest : Forall part_ok ps -> ps <> [] -> choose init (quoted ps ++ rest) = Some (char_rule, List.length (quoted ps)).
Proof.
  intros Hps Hn. pose proof (longest_quoted ps rest Hps Hn) as H. rewrite quoted_app in H |- *. rewrite choose_quote. cbn [choose r_re char_rule punct].
  rewrite H, longest_char, Ascii.eqb_refl. unfold quoted. rewrite app_comm_cons, app_length. cbn [List.length].
  destruct ps as [|p ps]; [contradiction|]. replace (_ + 1)%nat with (S (List.length (flat_map part_text (p :: ps)) + 1)) by lia.
  replace (S _ <? 1)%nat with false by (symmetry; apply Nat.ltb_ge; lia). reflexivity.
Qed.

Definition part_char (p : part) : ascii := match p with Plain c => c | Escape c => c end.
Lemma cstr_id s : Forall (fun c => c <> "000"%char) s -> cstr s = s.
Proof.
  induction 1 as [|c s Hc Hs IH]; [reflexivity|]. cbn. rewrite IH. destruct (Ascii.eqb c "000") eqn:H; [apply Ascii.eqb_eq in H; contradiction|reflexivity].
Qed.
Lemma quoted_no_nul ps : Forall (fun p => part_char p <> "000"%char) ps -> Forall (fun c => c <> "000"%char) (quoted ps).
Proof.
  intros H. unfold quoted. constructor; [discriminate|]. apply Forall_app. split; [|constructor; [discriminate|constructor]].
  induction H as [|p ps Hp Hps IH]; [constructor|]. cbn. apply Forall_app. split; [|exact IH].
  destruct p; cbn in *; repeat constructor; auto; discriminate.
Qed.

Lemma lex_char_value ps : Forall part_ok ps -> ps <> [] -> Forall (fun p => part_char p <> "000"%char) ps ->
  lex_char (quoted ps) = char_value ps.
Proof.
  intros Hps Hn H0. unfold lex_char. rewrite (cstr_id _ (quoted_no_nul ps H0)). unfold quoted.
  assert (Hbs : forall c, c <> bs -> Ascii.eqb c bs = false) by (intros c Hc; apply Ascii.eqb_neq, Hc).
  destruct ps as [|p ps]; [contradiction|]. inversion Hps as [|? ? Hp Hps']; subst.
  destruct p as [c|c]; cbn [flat_map part_text app].
  - destruct ps as [|q ps].
    + cbn. cbn in Hp. rewrite (Hbs c) by tauto. reflexivity.
    + destruct q as [d|d]; cbn [flat_map part_text app].
      * destruct ps as [|r ps].
        -- cbn. cbn in Hp. rewrite (Hbs c) by tauto. reflexivity.
        -- destruct r as [e|e]; cbn; [|reflexivity]. destruct (flat_map part_text ps ++ [sq]) as [|x l] eqn:He; [destruct (flat_map part_text ps); discriminate|]. reflexivity.
      * cbn. destruct (flat_map part_text ps ++ [sq]) as [|x l] eqn:He; [destruct (flat_map part_text ps); discriminate|].
        reflexivity.
  - destruct ps as [|q ps].
    + reflexivity.
    + destruct q as [d|d]; cbn [flat_map part_text app]; cbn; [|reflexivity].
      destruct (flat_map part_text ps ++ [sq]) as [|x l] eqn:He; [destruct (flat_map part_text ps); discriminate|]. reflexivity.
Qed.

Lemma lex_quoted fuel st ps rest : l_cond st = INITIAL -> Forall part_ok ps -> ps <> [] -> Forall (fun p => part_char p <> "000"%char) ps ->
  yylex T tn (S fuel) st (quoted ps ++ rest) = match char_value ps with Some z => Token (INTEGER z) st rest | None => Error end.
Proof.
  intros Hst Hps Hn H0. pose proof (lex_char_value ps Hps Hn H0) as Hc. destruct (char_value ps) as [z|].
  - eapply yylex_emit; [discriminate|rewrite Hst; apply choose_quoted; assumption|]. cbn [r_act char_rule]. rewrite Hc. reflexivity.
  - eapply yylex_err; [discriminate|rewrite Hst; apply choose_quoted; assumption|]. cbn [r_act char_rule]. rewrite Hc. reflexivity.
Qed.

Lemma lex_unquoted fuel st s : l_cond st = INITIAL ->
  (forall ps rest, Forall part_ok ps -> ps <> [] -> sq :: s <> quoted ps ++ rest) ->
  yylex T tn (S fuel) st (sq :: s) = Token (PUNCT sq) st s.
Proof.
  intros Hst Hno. apply (yylex_emit T tn fuel st [sq] s (punct sq)); [discriminate| |reflexivity]. rewrite Hst. cbn [app].
  rewrite choose_quote.
  assert (H : longest char_re (sq :: s) = None).
  { apply longest_no. intros w w' Hw Hm. apply matches_chars in Hm as (ps & Hps & Hn & [->| ->]); [|discriminate Hw].
    apply (Hno ps w' Hps Hn). exact Hw. }
  cbn [choose r_re char_rule punct]. rewrite H, longest_char, Ascii.eqb_refl. reflexivity.
Qed.

Definition ident_rule : rule := mkrule [INITIAL] ident_re (fun text st => Emit (if tn text then TYPE_NAME text else IDENTIFIER text) st).
Lemma choose_L s : choose init ("L"%char :: s) = choose [ident_rule; char_rule] ("L"%char :: s).
Proof. rewrite choose_alive, (choose_alive "L" s [ident_rule; char_rule]). f_equal. destruct T; reflexivity. Qed.

Lemma matches_ident u : matches ident_re u <-> exists c v, u = c :: v /\ is_L c = true /\ forallb (fun c => is_L c || is_D c) v = true.
Proof.
  assert (Hs : forall v, matches (Star (Alt (Cls is_L) (Cls is_D))) v <-> forallb (fun c => is_L c || is_D c) v = true).
  { intros v. split.
    - remember (Star _) as r eqn:Hr. intros H. induction H; try discriminate; [reflexivity|]. injection Hr as ->.
      apply matches_alt in H as [H|H]; apply matches_cls in H as (c & -> & H); cbn; rewrite H, IHmatches2 by reflexivity; [reflexivity|].
      destruct (is_L c); reflexivity.
    - induction v as [|c v IH]; [constructor|]. cbn. rewrite andb_true_iff, orb_true_iff. intros [H1 H2].
      apply (m_star _ [c] v); [|apply IH, H2]. apply matches_alt. destruct H1; [left|right]; apply matches_cls; eauto. }
  unfold ident_re. rewrite matches_cat. split.
  - intros (a & b & -> & H1 & H2). apply matches_cls in H1 as (c & -> & H1). apply Hs in H2. exists c, b. auto.
  - intros (c & v & -> & H1 & H2). exists [c], v. split; [reflexivity|]. split; [apply matches_cls; eauto|apply Hs, H2].
Qed.

Lemma lex_wide fuel st ps rest : l_cond st = INITIAL -> Forall part_ok ps -> ps <> [] ->
  yylex T tn (S fuel) st ("L"%char :: quoted ps ++ rest) = Error.
Proof.
  intros Hst Hps Hn. apply (yylex_err T tn fuel st ("L"%char :: quoted ps) rest char_rule); [discriminate|rewrite Hst|].
  - cbn [app]. rewrite choose_L.
    assert (H1 : longest ident_re ("L"%char :: quoted ps ++ rest) = Some 1%nat).
    { apply (longest_app ident_re ["L"%char]).
      - apply matches_ident. exists "L"%char, []. auto.
      - intros w w' Hw He Hm. apply matches_ident in Hm as (c & v & Hc & _ & Hv). injection Hc as _ <-.
        destruct w as [|d w]; [contradiction|]. injection He as <- _. discriminate Hv. }
    assert (H2 : longest char_re ("L"%char :: quoted ps ++ rest) = Some (S (List.length (quoted ps)))).
    { apply (longest_app char_re ("L"%char :: quoted ps) rest); [apply matches_chars; exists ps; auto|].
      intros w w' Hw -> Hm. apply matches_chars in Hm as (qs & Hqs & _ & [H|H]); [discriminate H|].
      assert (H' : quoted ps ++ w = quoted qs) by exact (f_equal (@tl ascii) H).
      rewrite quoted_app in H'. unfold quoted in H'. injection H' as H'.
      destruct (parts_unique ps qs w [] Hps Hqs H') as [_ ->]. contradiction. }
    cbn [choose r_re ident_rule char_rule]. rewrite H1, H2.
    replace (1 <? S _)%nat with true; [reflexivity|]. symmetry. apply Nat.ltb_lt. unfold quoted. cbn [List.length]. lia.
  - cbn [r_act char_rule]. replace (lex_char _) with (@None Z); [reflexivity|]. unfold lex_char, quoted. cbn [cstr Ascii.eqb].
    cbn. destruct (cstr _) as [|a [|b [|c [|d l]]]]; reflexivity.
Qed.

(** ** String literals *)
Notation strs := (active T tn str_lit).
Definition run_rule : rule := mkrule [str_lit] (Star (Cls (fun c => negb (Ascii.eqb c bs || Ascii.eqb c dq || Ascii.eqb c nl))))
     (fun text st => Skip (sl_append_str text st)).
Definition n_rule : rule := mkrule [str_lit] (Cat (Cls (Ascii.eqb bs)) (Cls (Ascii.eqb "n"))) (fun _ st => Skip (sl_append_char nl st)).
Definition t_rule : rule := mkrule [str_lit] (Cat (Cls (Ascii.eqb bs)) (Cls (Ascii.eqb "t"))) (fun _ st => Skip (sl_append_char tab st)).
Definition oct_rule : rule := mkrule [str_lit] (Cat (Cls (Ascii.eqb bs)) (Star (Cls (between "0" "7"))))
     (fun text st => Skip (sl_append_char (octal_char (skipn 1 text)) st)).
Definition esc_rule : rule := mkrule [str_lit] (Cat (Cls (Ascii.eqb bs)) (Cls (fun c => Ascii.eqb c bs || Ascii.eqb c dq)))
     (fun text st => Skip (sl_append_char (nth 1 text "000"%char) st)).
Definition end_rule : rule := mkrule [str_lit] (Cls (Ascii.eqb dq)) (fun _ st => Emit (CONST_STRING (l_buf st)) (begin INITIAL st)).
Definition bad_rule : rule := mkrule [str_lit] (Cat (Cls (Ascii.eqb bs)) (Cls is_any)) (fun _ _ => LexErr).
Definition nl_rule : rule := mkrule [str_lit] (Cls (Ascii.eqb nl)) (fun _ _ => LexErr).

Lemma strs_rules : strs = [run_rule; n_rule; t_rule; oct_rule; esc_rule; end_rule; bad_rule; nl_rule].
Proof. destruct T; reflexivity. Qed.
Lemma choose_dq s : choose init (dq :: s) = choose [mkrule [INITIAL] (Cls (Ascii.eqb dq)) (fun _ st => Skip (mklex str_lit []))] (dq :: s).
Proof. rewrite choose_alive. f_equal. destruct T; reflexivity. Qed.
Lemma str_bs s : choose strs (bs :: s) = choose [n_rule; t_rule; oct_rule; esc_rule; bad_rule] (bs :: s).
Proof. rewrite strs_rules, choose_alive. reflexivity. Qed.
Lemma str_dq s : choose strs (dq :: s) = choose [end_rule] (dq :: s).
Proof. rewrite strs_rules, choose_alive. reflexivity. Qed.
Lemma str_nl s : choose strs (nl :: s) = choose [nl_rule] (nl :: s).
Proof. rewrite strs_rules, choose_alive. reflexivity. Qed.

(** A pattern of a backslash and one character. *)
Lemma longest_escape f c s : longest (Cat (Cls (Ascii.eqb bs)) (Cls f)) (bs :: c :: s) = if f c then Some 2%nat else None.
Proof.
  assert (Hm : forall u, matches (Cat (Cls (Ascii.eqb bs)) (Cls f)) u <-> exists d, u = [bs; d] /\ f d = true).
  { intros u. rewrite matches_cat. split.
    - intros (a & b & -> & H1 & H2). apply matches_char in H1 as ->. apply matches_cls in H2 as (d & -> & H). exists d. split; [reflexivity|exact H].
    - intros (d & -> & H). exists [bs], [d]. split; [reflexivity|]. split; [apply matches_char; reflexivity|apply matches_cls; eauto]. }
  destruct (f c) eqn:Hf.
  - apply (longest_app _ [bs; c] s); [apply Hm; eauto|]. intros w w' Hw -> H. apply Hm in H as (d & H & _).
    destruct w; [contradiction|discriminate].
  - apply longest_no. intros w w' Hw H. apply Hm in H as (d & -> & H). injection Hw as -> _. congruence.
Qed.
Lemma longest_octal ds s : forallb (between "0" "7") ds = true -> match s with c :: _ => between "0" "7" c = false | [] => True end ->
  longest (Cat (Cls (Ascii.eqb bs)) (Star (Cls (between "0" "7")))) (bs :: ds ++ s) = Some (S (List.length ds)).
Proof.
  intros Hd Hs. apply (longest_app _ (bs :: ds) s).
  - apply (m_cat _ _ [bs] ds); [apply matches_char; reflexivity|apply matches_star_cls, Hd].
  - intros w w' Hw -> H. apply matches_cat in H as (a & b & He & H1 & H2). apply matches_char in H1 as ->. injection He as <-.
    apply matches_star_cls in H2. rewrite forallb_app in H2. apply andb_true_iff in H2 as [_ H2]. destruct w as [|c w]; [contradiction|].
    cbn [forallb] in H2. cbn [app] in Hs. rewrite Hs in H2. discriminate H2.
Qed.

(** The scanner in a string with more text in the buffer. *)
Definition more (st : lexst) (o : list ascii) : lexst := mklex str_lit (l_buf st ++ o).

Lemma run_step fuel st u v : l_cond st = str_lit -> u <> [] -> Forall ordinary u ->
  (exists c t, v = c :: t /\ (c = dq \/ c = nl \/ c = bs)) ->
  yylex T tn (S fuel) st (u ++ v) = yylex T tn fuel (more st u) v.
Proof.
  intros Hst Hu Ho (c & t & -> & Hc). set (f := fun c => negb (Ascii.eqb c bs || Ascii.eqb c dq || Ascii.eqb c nl)).
  assert (Hf : forallb f u = true).
  { apply forallb_forall. intros x Hx. rewrite Forall_forall in Ho. destruct (Ho x Hx) as (H1 & H2 & H3 & _).
    unfold f. rewrite negb_true_iff, !orb_false_iff, !Ascii.eqb_neq. tauto. }
  assert (Hl : longest (Star (Cls f)) (u ++ c :: t) = Some (List.length u)).
  { apply longest_app; [apply matches_star_cls, Hf|]. intros w w' Hw He Hm. apply matches_star_cls in Hm. rewrite forallb_app in Hm.
    apply andb_true_iff in Hm as [_ Hm]. destruct w as [|d w]; [contradiction|]. injection He as <- _. cbn [forallb] in Hm.
    destruct Hc as [->|[->| ->]]; discriminate Hm. }
  apply (yylex_skip T tn fuel st u (c :: t) run_rule); [exact Hu| |].
  - rewrite Hst. destruct u as [|d u]; [contradiction|]. cbn [app] in *.
    rewrite strs_rules, choose_alive. replace (filter _ _) with [run_rule].
    + cbn [choose r_re run_rule]. fold f. rewrite Hl. reflexivity.
    + inversion Ho as [|? ? (H1 & H2 & H3 & H4) _]; subst. clear - H1 H2 H3. all_chars d; try reflexivity; exfalso; auto.
  - cbn [r_act run_rule]. unfold sl_append_str, more. rewrite Hst, cstr_id; [reflexivity|].
    eapply Forall_impl; [|exact Ho]. intros a Ha. apply Ha.
Qed.

Lemma octal_ends_iff b : octal_ends b -> match b with c :: _ => between "0" "7" c = false | [] => True end.
Proof. destruct b as [|c b]; [auto|]. cbn. rewrite octal_digit_iff. destruct (between "0" "7" c); tauto. Qed.

Lemma append_char st c : c <> "000"%char -> l_cond st = str_lit -> sl_append_char c st = more st [c].
Proof.
  intros Hc Hst. unfold sl_append_char, sl_append_str, more. rewrite Hst. cbn. destruct (Ascii.eqb c "000") eqn:H; [apply Ascii.eqb_eq in H; contradiction|reflexivity].
Qed.

Lemma octal_append st ds v : l_cond st = str_lit -> numeral 8 ds v -> sl_append_char (octal_char ds) st = more st (octal_byte v).
Proof.
  intros Hst Hv. destruct (numeral_value 8 _ digit_is_8 ds v Hv) as (Hn & Hd & ->).
  unfold sl_append_char, sl_append_str, more, octal_byte, octal_char. rewrite Hst. f_equal. f_equal.
  change (Z.of_nat 8) with 8%Z. set (v := digits_value 8 ds).
  assert (Hb : (Z.min v (2 ^ 63 - 1) mod 256)%Z = (if (v <? 2 ^ 63)%Z then (v mod 256)%Z else 255%Z)).
  { destruct (Z.ltb_spec v (2 ^ 63)); [rewrite Z.min_l by lia; reflexivity|]. rewrite Z.min_r by lia. reflexivity. }
  rewrite Hb. set (b := if (v <? 2 ^ 63)%Z then (v mod 256)%Z else 255%Z).
  assert (Hb' : (0 <= b < 256)%Z).
  { unfold b. destruct (_ <? _)%Z; [apply Z.mod_pos_bound; lia|lia]. }
  clearbody b. clear Hb. unfold ascii_of_nat.
  destruct (Z.eqb_spec b 0) as [->|Hz]; [reflexivity|].
  replace (N.of_nat (Z.to_nat b)) with (Z.to_N b) by (rewrite <- Z_N_nat, N2Nat.id; reflexivity).
  cbn. destruct (Ascii.eqb _ "000") eqn:H; [|reflexivity]. apply Ascii.eqb_eq in H. exfalso. apply Hz.
  apply (f_equal N_of_ascii) in H. rewrite N_ascii_embedding in H by lia. change (N_of_ascii "000") with 0%N in H. lia.
Qed.

Lemma choose_escape c s : choose strs (bs :: c :: s) =
  if Ascii.eqb "n" c then Some (n_rule, 2%nat) else if Ascii.eqb "t" c then Some (t_rule, 2%nat)
  else if between "0" "7" c then choose strs (bs :: c :: s)
  else if (Ascii.eqb c bs || Ascii.eqb c dq) then Some (esc_rule, 2%nat)
  else if is_any c then Some (bad_rule, 2%nat) else Some (oct_rule, 1%nat).
Proof.
  destruct (between "0" "7" c) eqn:Ho.
  { destruct (Ascii.eqb "n" c) eqn:Hn; [apply Ascii.eqb_eq in Hn; subst; discriminate|].
    destruct (Ascii.eqb "t" c) eqn:Ht; [apply Ascii.eqb_eq in Ht; subst; discriminate|]. reflexivity. }
  rewrite str_bs. cbn [choose r_re n_rule t_rule oct_rule esc_rule bad_rule]. rewrite !longest_escape.
  pose proof (longest_octal [] (c :: s) eq_refl Ho) as H. cbn [app List.length] in H. rewrite H.
  destruct (Ascii.eqb "n" c) eqn:Hn; [apply Ascii.eqb_eq in Hn; subst; reflexivity|].
  destruct (Ascii.eqb "t" c) eqn:Ht; [apply Ascii.eqb_eq in Ht; subst; reflexivity|].
  destruct (Ascii.eqb c bs || Ascii.eqb c dq) eqn:He.
  - apply orb_true_iff in He as [He|He]; apply Ascii.eqb_eq in He; subst; reflexivity.
  - destruct (is_any c); reflexivity.
Qed.

Lemma choose_octal ds s : ds <> [] -> forallb (between "0" "7") ds = true -> match s with c :: _ => between "0" "7" c = false | [] => True end ->
  choose strs (bs :: ds ++ s) = Some (oct_rule, S (List.length ds)).
Proof.
  intros Hn Hd Hs. rewrite str_bs. cbn [choose r_re n_rule t_rule oct_rule esc_rule bad_rule]. rewrite (longest_octal ds s Hd Hs).
  destruct ds as [|c ds]; [contradiction|]. cbn [app]. rewrite !longest_escape. cbn in Hd. apply andb_true_iff in Hd as [Hc _].
  assert (H : Ascii.eqb "n" c = false /\ Ascii.eqb "t" c = false /\ (Ascii.eqb c bs || Ascii.eqb c dq) = false /\ is_any c = true).
  { clear - Hc. all_chars c; try discriminate Hc; repeat split. }
  destruct H as (-> & -> & -> & ->). cbn [List.length]. reflexivity.
Qed.

Lemma decodes_run b o : decodes b o -> exists u b' o', b = u ++ b' /\ o = u ++ o' /\ Forall ordinary u /\ decodes b' o' /\
  (b' = [] \/ exists t, b' = bs :: t).
Proof.
  induction 1.
  - exists [], [], []. repeat split; auto. constructor.
  - destruct IHdecodes as (u & b' & o' & -> & -> & Hu & Hd & Hb). exists (c :: u), b', o'. repeat split; auto.
  - exists [], (bs :: "n"%char :: b), (nl :: o). repeat split; auto; [constructor; assumption|right; eauto].
  - exists [], (bs :: "t"%char :: b), (tab :: o). repeat split; auto; [constructor; assumption|right; eauto].
  - exists [], (bs :: bs :: b), (bs :: o). repeat split; auto; [constructor; assumption|right; eauto].
  - exists [], (bs :: dq :: b), (dq :: o). repeat split; auto; [constructor; assumption|right; eauto].
  - exists [], (bs :: ds ++ b), (octal_byte v ++ o). repeat split; auto; [econstructor; eassumption|right; eauto].
Qed.

Lemma more_more st a b : more (more st a) b = more st (a ++ b).
Proof. unfold more. cbn. rewrite app_assoc. reflexivity. Qed.

(** The decoded part of a string literal is appended to the buffer. *)
Lemma decodes_step k : forall b o st fuel tail, (List.length b <= k)%nat -> decodes b o -> l_cond st = str_lit ->
  (exists c t, tail = c :: t /\ (c = dq \/ c = nl \/ c = bs)) -> (List.length b <= fuel)%nat ->
  exists fuel', (fuel - List.length b <= fuel')%nat /\ yylex T tn fuel st (b ++ tail) = yylex T tn fuel' (more st o) tail.
Proof.
  induction k as [|k IH]; intros b o st fuel tail Hk Hd Hst Ht Hf.
  { destruct b; [|cbn in Hk; lia]. inversion Hd; subst. exists fuel. split; [lia|]. cbn [app]. f_equal. unfold more. rewrite app_nil_r.
    destruct st; cbn in *; subst; reflexivity. }
  assert (Hesc : forall e b' o' r d, b = bs :: e :: b' -> o = d :: o' -> d <> "000"%char -> decodes b' o' ->
    choose strs (bs :: e :: b' ++ tail) = Some (r, 2%nat) -> r_act r [bs; e] st = Skip (sl_append_char d st) ->
    exists fuel', (fuel - List.length b <= fuel')%nat /\ yylex T tn fuel st (b ++ tail) = yylex T tn fuel' (more st o) tail).
  { intros e b' o' r d -> -> H0 Hd' Hc Ha. cbn in Hk, Hf. destruct fuel as [|fuel]; [lia|].
    pose proof (yylex_skip T tn fuel st [bs; e] (b' ++ tail) r (sl_append_char d st)) as Hs. cbn [app] in Hs.
    rewrite Hst in Hs. cbn [app]. rewrite Hs; [|discriminate|exact Hc|exact Ha]. rewrite append_char by auto.
    destruct (IH b' o' (more st [d]) fuel tail) as (f' & Hf' & ->); [lia|exact Hd'|reflexivity|exact Ht|lia|].
    exists f'. split; [cbn; lia|]. rewrite more_more. reflexivity. }
  destruct (decodes_run b o Hd) as (u & b' & o' & Hb & Ho & Hu & Hd' & Hb'). destruct u as [|c u].
  - destruct Hd.
    + apply (IH [] [] st fuel tail); cbn; try lia; auto. constructor.
    + cbn in Hb. destruct H as (H & _). destruct Hb' as [Hb'|(t & Hb')]; rewrite Hb' in Hb; [discriminate Hb|injection Hb as -> _; contradiction].
    + apply (Hesc "n"%char b o n_rule nl); auto; [discriminate|]. rewrite choose_escape. reflexivity.
    + apply (Hesc "t"%char b o t_rule tab); auto; [discriminate|]. rewrite choose_escape. reflexivity.
    + apply (Hesc bs b o esc_rule bs); auto; [discriminate|]. rewrite choose_escape. reflexivity.
    + apply (Hesc dq b o esc_rule dq); auto; [discriminate|]. rewrite choose_escape. reflexivity.
    + cbn in Hk, Hf. rewrite app_length in Hk, Hf. destruct fuel as [|fuel]; [lia|].
      pose proof (numeral_value 8 _ digit_is_8 ds v H) as (Hn & Hds & _).
      assert (Hc : choose strs ((bs :: ds) ++ b ++ tail) = Some (oct_rule, List.length (bs :: ds))).
      { cbn [app List.length]. apply choose_octal; [exact Hn|exact Hds|]. apply octal_ends_iff in H0. destruct b as [|d b]; [|exact H0].
        destruct Ht as (c & t & -> & [->|[->| ->]]); reflexivity. }
      pose proof (yylex_skip T tn fuel st (bs :: ds) (b ++ tail) oct_rule (more st (octal_byte v))) as Hs. rewrite Hst in Hs.
      cbn [app]. rewrite <- app_assoc. cbn [app] in Hs. rewrite Hs; [|discriminate|exact Hc|cbn; rewrite (octal_append st ds v Hst H); reflexivity].
      destruct (IH b o (more st (octal_byte v)) fuel tail) as (f' & Hf' & ->); [lia|exact Hd|reflexivity|exact Ht|lia|].
      exists f'. split; [cbn; rewrite app_length; lia|]. rewrite more_more. reflexivity.
  - subst b o. rewrite app_length in Hk, Hf. cbn [List.length] in Hk, Hf. destruct fuel as [|fuel]; [lia|].
    rewrite <- app_assoc. rewrite (run_step fuel st (c :: u) (b' ++ tail) Hst); [|discriminate|exact Hu|].
    + destruct (IH b' o' (more st (c :: u)) fuel tail) as (f' & Hf' & ->); [lia|exact Hd'|reflexivity|exact Ht|lia|].
      exists f'. split; [rewrite app_length; cbn; lia|]. rewrite more_more. reflexivity.
    + destruct Hb' as [->|(t & ->)]; [exact Ht|]. exists bs, (t ++ tail). auto.
Qed.

Lemma lex_string fuel st b o rest : l_cond st = INITIAL -> decodes b o -> (List.length b + 2 <= fuel)%nat ->
  yylex T tn fuel st (dq :: b ++ dq :: rest) = Token (CONST_STRING o) (mklex INITIAL o) rest.
Proof.
  intros Hst Hd Hf. destruct fuel as [|fuel]; [lia|].
  pose proof (yylex_skip T tn fuel st [dq] (b ++ dq :: rest) (mkrule [INITIAL] (Cls (Ascii.eqb dq)) (fun _ st => Skip (mklex str_lit []))) (mklex str_lit [])) as Hs.
  cbn [app] in Hs. rewrite Hs; [|discriminate| |reflexivity].
  2:{ rewrite Hst, choose_dq. cbn [choose r_re]. rewrite longest_char, Ascii.eqb_refl. reflexivity. }
  destruct (decodes_step (List.length b) b o (mklex str_lit []) fuel (dq :: rest)) as (f' & Hf' & ->); [lia|exact Hd|reflexivity|exists dq, rest; auto|lia|].
  destruct f' as [|f']; [lia|]. apply (yylex_emit T tn f' (more (mklex str_lit []) o) [dq] rest end_rule); [discriminate| |reflexivity].
  cbn [more l_cond app]. rewrite str_dq. cbn [choose r_re end_rule]. rewrite longest_char, Ascii.eqb_refl. reflexivity.
Qed.

Lemma lex_string_newline fuel st b o rest : l_cond st = INITIAL -> decodes b o -> (List.length b + 2 <= fuel)%nat ->
  yylex T tn fuel st (dq :: b ++ nl :: rest) = Error.
Proof.
  intros Hst Hd Hf. destruct fuel as [|fuel]; [lia|].
  pose proof (yylex_skip T tn fuel st [dq] (b ++ nl :: rest) (mkrule [INITIAL] (Cls (Ascii.eqb dq)) (fun _ st => Skip (mklex str_lit []))) (mklex str_lit [])) as Hs.
  cbn [app] in Hs. rewrite Hs; [|discriminate| |reflexivity].
  2:{ rewrite Hst, choose_dq. cbn [choose r_re]. rewrite longest_char, Ascii.eqb_refl. reflexivity. }
  destruct (decodes_step (List.length b) b o (mklex str_lit []) fuel (nl :: rest)) as (f' & Hf' & ->); [lia|exact Hd|reflexivity|exists nl, rest; auto|lia|].
  destruct f' as [|f']; [lia|]. apply (yylex_err T tn f' (more (mklex str_lit []) o) [nl] rest nl_rule); [discriminate| |reflexivity].
  cbn [more l_cond app]. rewrite str_nl. cbn [choose r_re nl_rule]. rewrite longest_char, Ascii.eqb_refl. reflexivity.
Qed.

Lemma lex_string_escape fuel st b o c rest : l_cond st = INITIAL -> decodes b o -> (List.length b + 3 <= fuel)%nat ->
  c <> "n"%char -> c <> "t"%char -> c <> bs -> c <> dq -> ~ octal_digit c ->
  yylex T tn fuel st (dq :: b ++ bs :: c :: rest) = Error.
Proof.
  intros Hst Hd Hf H1 H2 H3 H4 H5. destruct fuel as [|fuel]; [lia|].
  pose proof (yylex_skip T tn fuel st [dq] (b ++ bs :: c :: rest) (mkrule [INITIAL] (Cls (Ascii.eqb dq)) (fun _ st => Skip (mklex str_lit []))) (mklex str_lit [])) as Hs.
  cbn [app] in Hs. rewrite Hs; [|discriminate| |reflexivity].
  2:{ rewrite Hst, choose_dq. cbn [choose r_re]. rewrite longest_char, Ascii.eqb_refl. reflexivity. }
  destruct (decodes_step (List.length b) b o (mklex str_lit []) fuel (bs :: c :: rest)) as (f' & Hf' & ->); [lia|exact Hd|reflexivity|exists bs, (c :: rest); auto|lia|].
  assert (Hc : choose strs (bs :: c :: rest) = if is_any c then Some (bad_rule, 2%nat) else Some (oct_rule, 1%nat)).
  { rewrite choose_escape. rewrite octal_digit_iff in H5. destruct (Ascii.eqb "n" c) eqn:E1; [apply Ascii.eqb_eq in E1; congruence|].
    destruct (Ascii.eqb "t" c) eqn:E2; [apply Ascii.eqb_eq in E2; congruence|]. destruct (between "0" "7" c); [tauto|].
    destruct (Ascii.eqb c bs) eqn:E3; [apply Ascii.eqb_eq in E3; congruence|]. destruct (Ascii.eqb c dq) eqn:E4; [apply Ascii.eqb_eq in E4; congruence|]. reflexivity. }
  destruct f' as [|f']; [lia|]. destruct (is_any c) eqn:Hany.
  - apply (yylex_err T tn f' (more (mklex str_lit []) o) [bs; c] rest bad_rule); [discriminate|exact Hc|reflexivity].
  - assert (c = nl) as -> by (unfold is_any in Hany; apply negb_false_iff, Ascii.eqb_eq in Hany; congruence).
    pose proof (yylex_skip T tn f' (more (mklex str_lit []) o) [bs] (nl :: rest) oct_rule (more (mklex str_lit []) o)) as Hs2.
    cbn [app] in Hs2. rewrite Hs2; [|discriminate|exact Hc|]; clear Hs Hs2.
    2:{ cbn [r_act oct_rule]. f_equal. unfold sl_append_char, sl_append_str, more. cbn. rewrite app_nil_r. reflexivity. }
    destruct f' as [|f']; [lia|]. apply (yylex_err T tn f' (more (mklex str_lit []) o) [nl] rest nl_rule); [discriminate| |reflexivity].
    cbn [more l_cond app]. rewrite str_nl. cbn [choose r_re nl_rule]. rewrite longest_char, Ascii.eqb_refl. reflexivity.
Qed.
End Lex.

Lemma encode_decodes s : Forall (fun c => c <> "000"%char) s -> decodes (encode s) s.
Proof.
  induction 1 as [|c s Hc Hs IH]; [constructor|]. cbn [encode flat_map]. fold (encode s). unfold encode_char.
  destruct (Ascii.eqb c bs) eqn:H1; [apply Ascii.eqb_eq in H1; subst; constructor; exact IH|].
  destruct (Ascii.eqb c dq) eqn:H2; [apply Ascii.eqb_eq in H2; subst; constructor; exact IH|].
  destruct (Ascii.eqb c nl) eqn:H3; [apply Ascii.eqb_eq in H3; subst; constructor; exact IH|].
  apply Ascii.eqb_neq in H1, H2, H3. cbn [app]. constructor; [split; auto|exact IH].
Qed.
