(** Facts about the loop of the REPL (Session.v). *)
From Coq Require Import ZArith List String Ascii Bool Lia Arith DecimalString.
From Coq Require DecimalFacts DecimalZ.
From Verif Require Import CInt Tree State Eval Lexer Grammar Typename Repl Session SpecLexer SpecScan LexerFacts LexerFacts2 LexerFacts3 ScanFacts
  ParserFacts SpecParser SpecSyntax SyntaxFacts AdjacentFacts SyntaxProps SpecRun RunFacts SpecExpr SpecVars VarFacts ReplFacts SpecSession.
Import ListNotations.
Local Open Scope string_scope.
Local Open Scope Z_scope.
Local Open Scope list_scope.
Notation text := Repl.text.

(** ** Scanning *)
Section Scans.
Variable tn : text -> bool.

Lemma reads_det st s l e : scans tn st s l e -> forall l0 st0 s0, reads tn st s l0 st0 s0 ->
  exists l1, l = l0 ++ l1 /\ scans tn st0 s0 l1 e.
Proof.
  intros (st' & s' & R & F) l0 st0 s0 R0. revert l st' s' R F. induction R0 as [st s|st s t st1 s1 l0 st0 s0 Hy R0 IH]; intros l st' s' R F.
  - exists l. split; [reflexivity|]. exists st', s'. auto.
  - destruct R as [st s|st s t' st1' s1' l st' s' Hy' R].
    + exfalso. rewrite Hy in F. destruct e; discriminate F.
    + rewrite Hy in Hy'. injection Hy' as <- <- <-. destruct (IH l st' s' R F) as (l1 & -> & S1). exists l1. auto.
Qed.
Lemma scans_end st s e : scans tn st s [] e -> match e with Finished st2 => yylex REPL_T tn (S (List.length s)) st s = EndOfInput st2
  | ScanError => yylex REPL_T tn (S (List.length s)) st s = Error end.
Proof. intros (st' & s' & R & F). inversion R; subst. exact F. Qed.
Lemma scans_det st s l e l' e' : scans tn st s l e -> scans tn st s l' e' -> l' = l /\ e' = e.
Proof.
  intros S1 (st' & s' & R & F). destruct (reads_det st s l e S1 l' st' s' R) as (l1 & -> & S2).
  destruct S2 as (st2 & s2 & R2 & F2). destruct R2 as [st2 s2|st2 s2 t st3 s3 l1 st4 s4 Hy R2].
  - rewrite app_nil_r. split; [reflexivity|]. destruct e, e'; congruence.
  - rewrite Hy in F. destruct e'; discriminate F.
Qed.

Lemma choose_pos rs s r n : choose rs s = Some (r, n) -> (0 < n)%nat.
Proof.
  revert r n. induction rs as [|a rs IH]; cbn [choose]; intros r n; [discriminate|].
  destruct (longest (r_re a) s) as [[|k]|]; [apply IH| |apply IH]. destruct (choose rs s) as [[r' m]|]; [|intros [= <- <-]; lia].
  destruct (S k <? m)%nat; intros [= <- <-]; [|lia]. apply (IH r' m eq_refl).
Qed.
Lemma yylex_fuel T f : forall g st s, (List.length s <= f)%nat -> (List.length s <= g)%nat -> yylex T tn f st s = yylex T tn g st s.
Proof.
  induction f as [|f IH]; intros g st s Hf Hg.
  - destruct s; [|cbn in Hf; lia]. destruct g; reflexivity.
  - destruct s as [|c s]; [destruct g; reflexivity|]. destruct g as [|g]; [cbn in Hg; lia|]. cbn [List.length] in Hf, Hg. cbn [yylex].
    destruct (choose (active T tn (l_cond st)) (c :: s)) as [[r n]|] eqn:Hc; [|apply IH; lia]. apply choose_pos in Hc.
    destruct (r_act r (firstn n (c :: s)) st); try reflexivity. apply IH; rewrite skipn_length; cbn [List.length]; lia.
Qed.

(** A text of a token sequence. *)
Definition ends_tag (tag : bool) (l : list token) : bool := match rev l with [] => tag | t :: _ => tag_word t end.
Lemma ends_tag_cons tag t l : ends_tag tag (t :: l) = ends_tag (tag_word t) l.
Proof. unfold ends_tag. cbn [rev]. destruct (rev l) as [|a r]; reflexivity. Qed.
Lemma scans_step st s t st1 s1 l e : yylex REPL_T tn (S (List.length s)) st s = Token t st1 s1 -> scans tn st1 s1 l e -> scans tn st s (t :: l) e.
Proof. intros Hy (st' & s' & R & F). exists st', s'. split; [econstructor; eassumption|exact F]. Qed.
Lemma scans_same st s st1 s1 l e : yylex REPL_T tn (S (List.length s)) st s = yylex REPL_T tn (S (List.length s1)) st1 s1 -> scans tn st1 s1 l e -> scans tn st s l e.
Proof.
  intros Hy (st' & s' & R & F). inversion R; subst.
  - exists st, s. split; [constructor|]. rewrite Hy. exact F.
  - exists st', s'. split; [|exact F]. econstructor; [rewrite Hy; eassumption|eassumption].
Qed.
Lemma writes_scans tag l s : writes tn tag l s -> forall st, l_cond st = cond_of tag ->
  exists st', scans tn st s l (Finished st') /\ l_cond st' = cond_of (ends_tag tag l).
Proof.
  induction 1; intros st Hst.
  - exists st. split; [|exact Hst]. exists st, []. split; [constructor|reflexivity].
  - destruct (IHwrites st Hst) as (st' & S1 & C1). exists st'. split; [|exact C1]. eapply scans_same; [|exact S1]. cbn [List.length].
    rewrite lex_white; [|assumption|rewrite Hst; destruct tag; discriminate]. reflexivity.
  - destruct (IHwrites st Hst) as (st' & S1 & C1). exists st'. split; [|exact C1]. eapply scans_same; [|exact S1].
    rewrite lex_name by eauto using entry_not_special. rewrite H0. apply yylex_fuel; rewrite ?app_length; lia.
  - assert (L : (List.length u < S (List.length (u ++ s)))%nat) by (rewrite app_length; lia).
    destruct (lex_spelled REPL_T tn t u s _ st H Hst L) as (st1 & Hy & Hst1 & _).
    destruct (IHwrites st1 Hst1) as (st' & S1 & C1). exists st'. split; [|rewrite ends_tag_cons; exact C1]. eapply scans_step; eassumption.
  - destruct (IHwrites (mklex INITIAL (l_buf st)) eq_refl) as (st' & S1 & C1). exists st'. split; [|rewrite ends_tag_cons; exact C1].
    eapply scans_step; [apply lex_tag; assumption|exact S1].
  - destruct (IHwrites (mklex INITIAL (l_buf st)) eq_refl) as (st' & S1 & C1). exists st'. split; [|rewrite ends_tag_cons; exact C1].
    eapply scans_step; [apply lex_brace; assumption|exact S1].
Qed.
End Scans.

(** ** Parsing a line *)
Lemma replparse_accept se line l st ts n : scans (is_type se) (se_lex se) line l (Finished st) -> ~ In typedef_token l ->
  parses_only REPL_T (fresh (se_eval se)) l (CHAIN_HEAD ts) n ->
  forall r, replparse se line r <-> r = Accepted ts (mksession st (se_names se) (set_fresh (fun _ => n) (se_eval se))).
Proof.
  intros S1 Nt [P U] r. split.
  - intros R. destruct R as [l' st' ts' n' S' Nt' P'|l' st' k sp d n' S' It P'|l' st' rest R' Nt' B|l' st' S' Nt' B|l' S'|l' st' rest R' [It _] _ B].
    + destruct (scans_det _ _ _ _ _ _ _ S1 S') as [-> [= ->]]. destruct (U _ _ P') as [[= ->] ->]. reflexivity.
    + destruct (scans_det _ _ _ _ _ _ _ S1 S') as [-> _]. contradiction.
    + destruct (reads_det _ _ _ _ _ S1 _ _ _ R') as (l1 & -> & _). destruct (B _ _ _ _ P).
    + destruct (scans_det _ _ _ _ _ _ _ S1 S') as [-> _]. destruct (B _ _ _ P).
    + destruct (scans_det _ _ _ _ _ _ _ S1 S') as [_ E]. discriminate E.
    + destruct (reads_det _ _ _ _ _ S1 _ _ _ R') as (l1 & -> & _). destruct Nt. apply in_or_app. auto.
  - intros ->. eapply rp_accept; eassumption.
Qed.
Lemma replparse_typedef se line l st k sp d n : scans (is_type se) (se_lex se) line l (Finished st) -> In typedef_token l ->
  parses_only REPL_T (fresh (se_eval se)) l (CHAIN_HEAD [T_DECL k sp d]) n ->
  forall r, replparse se line r <->
    r = Accepted [T_DECL k sp d] (mksession st (maybe_add_typenames k sp d (se_names se)) (set_fresh (fun _ => n) (se_eval se))).
Proof.
  intros S1 It [P U] r. split.
  - intros R. destruct R as [l' st' ts' n' S' Nt' P'|l' st' k' sp' d' n' S' It' P'|l' st' rest R' Nt' B|l' st' S' Nt' B|l' S'|l' st' rest R' It' _ B].
    + destruct (scans_det _ _ _ _ _ _ _ S1 S') as [-> _]. contradiction.
    + destruct (scans_det _ _ _ _ _ _ _ S1 S') as [-> [= ->]]. destruct (U _ _ P') as [[= -> -> ->] ->]. reflexivity.
    + destruct (reads_det _ _ _ _ _ S1 _ _ _ R') as (l1 & -> & _). destruct (B _ _ _ _ P).
    + destruct (scans_det _ _ _ _ _ _ _ S1 S') as [-> _]. destruct (B _ _ _ P).
    + destruct (scans_det _ _ _ _ _ _ _ S1 S') as [_ E]. discriminate E.
    + destruct (B _ _ _ _ _ _ _ S1 P).
  - intros ->. eapply rp_typedef; eassumption.
Qed.

(** ** A whole line *)
Lemma ends_tag_snoc tag l t : ends_tag tag (l ++ [t]) = tag_word t.
Proof. unfold ends_tag. rewrite rev_app_distr. reflexivity. Qed.
Lemma ends_tag_line x : ends_tag false (line_text x) = false.
Proof.
  destruct x as [|es|[ss|ss ds]|s|x]; cbn [line_text decl_text]; try reflexivity; rewrite ?app_assoc, ends_tag_snoc; reflexivity.
Qed.
Lemma flat_map_concat {A B} (f : A -> list B) l : flat_map f l = List.concat (map f l).
Proof. induction l; cbn; congruence. Qed.
Lemma cpp_of_line H se line : cpp_output H se line =
  h_cpp H (List.concat (map (fun x => list_ascii_of_string x ++ [newline]) (includes (se_eval se))) ++ line).
Proof. unfold cpp_output, cpp_file. rewrite flat_map_concat, map_map. reflexivity. Qed.
Lemma preprocessed_line H se line line' : preprocessed H se line line' ->
  exists w, (w = [] \/ w = [newline]) /\ run_cpp_on_line (S (List.length (cpp_output H se line))) (cpp_output H se line) = Line (w ++ line').
Proof.
  intros (Ne & Nn & before & B & HH). rewrite cpp_of_line, HH. destruct B as [->|(b & ->)].
  - exists []. split; [auto|]. cbn [app]. rewrite cpp_line_first; auto.
  - exists [newline]. split; [auto|]. rewrite <- app_assoc. cbn [app]. rewrite cpp_line_newline; auto.
Qed.
Lemma newline_white : In newline white.
Proof. right. right. left. reflexivity. Qed.

Lemma parse_line H se x line t1 n1 t n2 : typed H se (line_text x) line -> line_fits x -> (forall s, x <> LInclude s) ->
  ~ In typedef_token (line_text x) -> line_tree x (fresh (se_eval se)) = (t1, n1) -> line_tree x n1 = (t, n2) ->
  exists st, l_cond st = INITIAL /\ forall r, repl_parse_line H se line r <->
    r = Statement t (mksession st (se_names se) (set_fresh (fun _ => n2) (se_eval se))).
Proof.
  intros (C0 & W1 & line' & P & W2) F Ni Nt T1 T2.
  destruct (writes_scans _ _ _ _ W1 (se_lex se) C0) as (st1 & S1 & C1). rewrite ends_tag_line in C1.
  pose proof (replparse_accept se line _ st1 [t1] n1 S1 Nt (one_line x _ _ _ F T1)) as R1.
  set (se1 := mksession st1 (se_names se) (set_fresh (fun _ => n1) (se_eval se))) in *.
  assert (Inc : is_CPP_INCLUDE t1 = false).
  { destruct x as [|es|d|s|y]; cbn [line_tree] in T1; [injection T1 as <- <-; reflexivity| | |now destruct (Ni s)|injection T1 as <- <-; reflexivity].
    - unfold elist in T1. destruct (etrees es _). injection T1 as <- <-. reflexivity.
    - unfold decl_tree in T1. destruct d as [ss|ss ds]; destruct (specs_tree ss _); [|destruct (idecls_tree ds _)]; injection T1 as <- <-; reflexivity. }
  assert (P1 : preprocessed H se1 line line') by exact P.
  destruct (preprocessed_line _ _ _ _ P1) as (w & Hw & Hl).
  assert (W2' : writes (is_type se1) false (line_text x) (w ++ line')).
  { destruct Hw as [->| ->]; [exact W2|]. cbn [app]. constructor; [exact newline_white|exact W2]. }
  destruct (writes_scans _ _ _ _ W2' (se_lex se1) C1) as (st2 & S2 & C2). rewrite ends_tag_line in C2.
  pose proof (replparse_accept se1 (w ++ line') _ st2 [t] n2 S2 Nt (one_line x _ _ _ F T2)) as R2.
  exists st2. split; [exact C2|]. intros r. split.
  - intros [r0 R0 I0|r0 t0 se0 R0 D0 I0 L0|r0 t0 se0 line0 r' R0 D0 I0 L0 R'].
    + apply R1 in R0. subst r0. cbn [do_parse] in I0. rewrite Inc in I0. discriminate I0.
    + apply R1 in R0. subst r0. injection D0 as <- <-. rewrite Hl in L0. discriminate L0.
    + apply R1 in R0. subst r0. injection D0 as <- <-. rewrite Hl in L0. injection L0 as <-. apply R2 in R'. subst r'. reflexivity.
  - intros ->. change (Statement t _) with (do_parse (Accepted [t] (mksession st2 (se_names se1) (set_fresh (fun _ => n2) (se_eval se1))))).
    eapply pl_second; [apply R1; reflexivity|reflexivity|exact Inc|exact Hl|]. apply R2. reflexivity.
Qed.

Lemma round_answers E H se line t se' : is_CPP_INCLUDE t = false -> is_T_INSPECT t = false -> (forall r, repl_parse_line H se line r <-> r = Statement t se') ->
  forall r, repl_round E H se line r <-> answers E H se' t r.
Proof.
  intros Inc Ins P r. split.
  - intros [se0 Q|Q|Q|t0 se0 fuel s names Q Ni Ev Nm|t0 se0 fuel v s out names Q Ni Ev Nv Nm Pp|t0 se0 fuel v s Q Ni Ev Pp|t0 se0 fuel r0 Q Ni Ev Nf Ns|y se0 fuel out s Q Ev|y se0 fuel r0 Q Ev Nf Ns];
      apply P in Q; try discriminate Q; [| | | |injection Q as <- _; discriminate Ins..]; injection Q as -> ->; try (unfold names_after in Nm; rewrite Inc in Nm; subst names).
    + apply an_nothing. split; [discriminate|eauto].
    + eapply an_value; eauto. split; [discriminate|eauto].
    + eapply an_unprintable; eauto. split; [discriminate|eauto].
    + apply an_ends; [split; eauto|exact Ns].
  - pose proof (proj2 (P _) eq_refl) as Q. assert (Nm : names_after t (se_names se') (se_names se')) by (unfold names_after; rewrite Inc; reflexivity).
    intros [s [_ (n & Ev)]|v s out [_ (n & Ev)] Nv Pp|v s [_ (n & Ev)] Pp|r0 [Nf (n & Ev)] Ns].
    + eapply rr_null; eauto.
    + eapply rr_value; eauto.
    + eapply rr_unprintable; eauto.
    + eapply rr_ends; eauto.
Qed.

Lemma line_answers E H se x line t1 n1 t n2 : typed H se (line_text x) line -> line_fits x -> (forall s, x <> LInclude s) -> (forall y, x <> LInspect y) ->
  ~ In typedef_token (line_text x) -> line_tree x (fresh (se_eval se)) = (t1, n1) -> line_tree x n1 = (t, n2) ->
  exists st, l_cond st = INITIAL /\ forall r, repl_round E H se line r <->
    answers E H (mksession st (se_names se) (set_fresh (fun _ => n2) (se_eval se))) t r.
Proof.
  intros Ty F Ni Ns Nt T1 T2. destruct (parse_line H se x line t1 n1 t n2 Ty F Ni Nt T1 T2) as (st & C & P). exists st. split; [exact C|].
  apply round_answers; [| |exact P].
  1: destruct x as [|es|d|s|y]; cbn [line_tree] in T2; [injection T2 as <- <-; reflexivity| | |now destruct (Ni s)|injection T2 as <- <-; reflexivity].
  3: destruct x as [|es|d|s|y]; cbn [line_tree] in T2; [injection T2 as <- <-; reflexivity| | |now destruct (Ni s)|now destruct (Ns y)].
  1, 3: unfold elist in T2; destruct (etrees es _); injection T2 as <- <-; reflexivity.
  1, 2: unfold decl_tree in T2; destruct d as [ss|ss ds]; destruct (specs_tree ss _); [|destruct (idecls_tree ds _)]; injection T2 as <- <-; reflexivity.
Qed.

(** ** The decimal notation *)
Lemma no_zero d l : list_ascii_of_string (NilZero.string_of_uint (Decimal.unorm d)) = "0"%char :: l -> l = [].
Proof.
  pose proof (DecimalFacts.nzhead_nonzero d) as N. unfold Decimal.unorm. destruct (Decimal.nzhead d) eqn:D; cbn; intros E; try discriminate E; [injection E; congruence|now destruct (N u)].
Qed.
Lemma no_zero' d l : Decimal.nzhead d <> Decimal.Nil -> list_ascii_of_string (NilZero.string_of_uint (Decimal.nzhead d)) = "0"%char :: l -> l = [].
Proof.
  pose proof (DecimalFacts.nzhead_nonzero d) as N. destruct (Decimal.nzhead d) eqn:D; cbn; intros F E; try discriminate E; [congruence|now destruct (N u)].
Qed.
Lemma print_decimal z : decimal z (print_integer z).
Proof.
  unfold decimal, print_integer.
  assert (Hn : Z.to_int z = Decimal.norm (Z.to_int z)) by (rewrite <- DecimalZ.to_of, DecimalZ.of_to; reflexivity).
  pose proof (DecimalZ.of_to z) as Hz. destruct (Z.to_int z) as [d|d] eqn:Hd.
  - cbn [Decimal.norm] in Hn. injection Hn as Hn. cbn [Z.of_int] in Hz. cbn [NilZero.string_of_int].
    assert (Z0 : 0 <= z) by (rewrite <- Hz; unfold Z.of_uint; apply N2Z.is_nonneg). replace (z <? 0) with false by (symmetry; apply Z.ltb_ge; lia).
    destruct (nz_uint d) as (ds & H & H1 & H2 & H3). exists ds. rewrite Z.abs_eq by assumption. rewrite <- Hz, <- H3.
    split; [apply (numeral_intro 10 is_D D_digit_is); assumption|]. split; [|assumption]. intros l E. rewrite <- H in E. rewrite Hn in E. eapply no_zero. exact E.
  - destruct z as [|q|q]; [discriminate Hd|discriminate Hd|]. cbn [Decimal.norm] in Hn. cbn [Z.of_int] in Hz. cbn [NilZero.string_of_int list_ascii_of_string].
    replace (Z.neg q <? 0) with true by reflexivity.
    destruct (nz_uint d) as (ds & H & H1 & H2 & H3). exists ds. replace (Z.abs (Z.neg q)) with (Z.of_uint d) by lia. rewrite <- H3.
    split; [apply (numeral_intro 10 is_D D_digit_is); assumption|]. split; [|congruence].
    intros l E. rewrite <- H in E. assert (Hn' : d = Decimal.nzhead d /\ Decimal.nzhead d <> Decimal.Nil) by (destruct (Decimal.nzhead d); (discriminate Hn || (injection Hn as Hn; split; [exact Hn|discriminate]))).
    destruct Hn' as [Hn1 Hn2]. rewrite Hn1 in E. eapply no_zero'; eassumption.
Qed.

(** ** Integer expressions *)
Lemma parts_group x : syntax (Group x) = T_EXPR_LIST (CHAIN_HEAD (parts x)).
Proof. reflexivity. Qed.
Lemma parts_one x : (forall a b, x <> Comma a b) -> parts x = [syntax x].
Proof. destruct x; try reflexivity. intros N. now destruct (N x1 x2). Qed.
Lemma int_tree : (forall e x n, int_exp e = Some x -> (forall a b, x <> Comma a b) /\ etree e n = (syntax x, n)) /\
  (forall es x n, int_exps es = Some x -> etrees es n = (parts x, n)).
Proof.
  apply cexp_mutind; cbn [int_exp int_exps etree etrees]; try discriminate.
  - intros z x n [= <-]. split; [discriminate|reflexivity].
  - intros y x n [= <-]. split; [discriminate|reflexivity].
  - intros es IH x n Hx. destruct (int_exps es) as [y|]; [|discriminate]. injection Hx as <-. split; [discriminate|]. rewrite (IH y n eq_refl). reflexivity.
  - intros o a IH x n Hx. destruct o; try discriminate; destruct (int_exp a) as [y|]; try discriminate; injection Hx as <-; (split; [discriminate|]);
      rewrite (proj2 (IH y n eq_refl)); reflexivity.
  - intros o a IHa b IHb x n Hx. destruct (int_exp a) as [y|]; [|discriminate]. destruct (int_exp b) as [z|]; [|discriminate]. injection Hx as <-.
    rewrite (proj2 (IHa y n eq_refl)), (proj2 (IHb z n eq_refl)). destruct o; (split; [discriminate|reflexivity]).
  - intros a IHa es IHes c IHc x n Hx. destruct (int_exp a) as [y|]; [|discriminate]. destruct (int_exps es) as [w|]; [|discriminate].
    destruct (int_exp c) as [z|]; [|discriminate]. injection Hx as <-.
    rewrite (proj2 (IHa y n eq_refl)), (IHes w n eq_refl), (proj2 (IHc z n eq_refl)). split; [discriminate|reflexivity].
  - intros e IH x n Hx. destruct (IH x n Hx) as [N ->]. rewrite parts_one by exact N. reflexivity.
  - intros es IHes e IHe x n Hx. destruct (int_exps es) as [a|]; [|discriminate]. destruct (int_exp e) as [b|]; [|discriminate]. injection Hx as <-.
    rewrite (IHes a n eq_refl), (proj2 (IHe b n eq_refl)). reflexivity.
Qed.
Lemma int_elist es x n : int_exps es = Some x -> elist es n = (syntax (Group x), n).
Proof. intros Hx. unfold elist. rewrite (proj2 int_tree es x n Hx). reflexivity. Qed.

Lemma no_typedef_base b : ~ In typedef_token (base_text b).
Proof. destruct b as [| | | | | | | | | |x|[] x|x]; cbn; intuition discriminate. Qed.
Lemma no_typedef_type ty : ~ In typedef_token (type_text ty).
Proof.
  unfold type_text. rewrite !in_app_iff. intros [I|[I|I]]; [exact (no_typedef_base _ I)| |].
  - apply in_concat in I. destruct I as (l & I & J). apply in_map_iff in I. destruct I as (b & <- & _). exact (no_typedef_base _ J).
  - apply repeat_spec in I. discriminate I.
Qed.
Lemma no_typedef : (forall e, ~ In typedef_token (SpecSyntax.text e)) /\ (forall es, ~ In typedef_token (texts es)).
Proof.
  apply cexp_mutind; cbn [SpecSyntax.text texts]; intros;
    repeat (rewrite ?in_app_iff; cbn [In]); try (intuition discriminate).
  - destruct o; cbn; intuition discriminate.
  - pose proof (no_typedef_type t). intuition discriminate.
  - pose proof (no_typedef_type t). intuition discriminate.
  - destruct o as [[]|[]| |]; cbn; intuition discriminate.
  - destruct o; cbn; intuition discriminate.
Qed.

Lemma pp_integer H s z : pretty_print H s (T_INTEGER z) = Some (print_integer z).
Proof. reflexivity. Qed.

Lemma set_fresh_same s : set_fresh (fun _ => fresh s) s = s.
Proof. destruct s; reflexivity. Qed.

Section Values.
Variable E : env.
Variable H : host.
Lemma answers_value se t v s out : runs E (se_eval se) t (Ok v s) -> v <> NULL -> pretty_print H s v = Some out ->
  forall r, answers E H se t r <-> r = Continues (out ++ [newline]) (mksession (se_lex se) (se_names se) s).
Proof.
  intros R N P r. split; [|intros ->; eapply an_value; eauto].
  intros [s' R'|v' s' out' R' N' P'|v' s' R' P'|r' R' S']; pose proof (runs_fun _ _ _ _ _ R R') as U; try (injection U as <- <-); subst; try congruence.
Qed.
Lemma answers_ends se t r0 : runs E (se_eval se) t r0 -> SpecRun.stops r0 -> forall r, answers E H se t r <-> r = Ends r0.
Proof.
  intros R N r. split; [|intros ->; eapply an_ends; eauto].
  intros [s' R'|v' s' out' R' N' P'|v' s' R' P'|r' R' S']; pose proof (runs_fun _ _ _ _ _ R R') as U; try (now destruct (N _ _ U)). congruence.
Qed.
Lemma answers_nothing se t s : runs E (se_eval se) t (Ok NULL s) -> forall r, answers E H se t r <-> r = Continues [] (mksession (se_lex se) (se_names se) s).
Proof.
  intros R r. split; [|intros ->; eapply an_nothing; eauto].
  intros [s' R'|v' s' out' R' N' P'|v' s' R' P'|r' R' S']; pose proof (runs_fun _ _ _ _ _ R R') as U; try (injection U as <- <-); subst; try congruence.
  all: try now destruct (S' NULL s). all: cbn in P'; discriminate P'.
Qed.

Lemma int_line se es x rho line : typed H se (texts es ++ [p ";"]) line -> fits_all es -> int_exps es = Some x -> computed x ->
  (forall y, mentions x y -> number E (se_eval se) (lookup (se_eval se) y) (rho y)) ->
  exists st s', l_cond st = INITIAL /\ only_gc E (se_eval se) s' /\
    match denote rho x with
    | Some v => exists out, decimal v out /\
        forall r, repl_round E H se line r <-> r = Continues (out ++ [newline]) (mksession st (se_names se) s')
    | None => forall r, repl_round E H se line r <-> r = Ends (Abort s')
    end.
Proof.
  intros Ty F Hx Hc Hr.
  assert (Nt : ~ In typedef_token (line_text (LExp es))).
  { cbn [line_text]. rewrite in_app_iff. intros [J|[J|[]]]; [exact (proj2 no_typedef es J)|discriminate J]. }
  assert (Ni : forall s, LExp es <> LInclude s) by discriminate.
  pose proof (int_elist es x (fresh (se_eval se)) Hx) as Tr.
  destruct (line_answers E H se (LExp es) line _ _ _ _ Ty F Ni ltac:(discriminate) Nt Tr Tr) as (st & C & A).
  rewrite set_fresh_same in A. 
  destruct (computed_value E rho (Group x) (se_eval se) Hc Hr) as (s' & G & R). exists st, s'. split; [exact C|]. split; [exact G|].
  cbn [denote] in R. destruct (denote rho x) as [v|].
  - exists (print_integer v). split; [apply print_decimal|]. intros r. rewrite A. apply (answers_value (mksession st (se_names se) (se_eval se)) _ (T_INTEGER v)); [exact R|discriminate|apply pp_integer].
  - intros r. rewrite A. apply answers_ends; [exact R|]. intros a b; discriminate.
Qed.
End Values.
