(** More facts about the loop of the REPL: variables, assignments, rejected lines, typedefs. *)
From Coq Require Import ZArith List String Ascii Bool Lia Arith.
From Verif Require Import CInt Tree State Eval Lexer Grammar Typename Repl Session SpecLexer SpecScan LexerFacts LexerFacts2 LexerFacts3 ScanFacts
  ParserFacts SpecParser SpecSyntax SyntaxFacts AdjacentFacts SyntaxProps SpecNames NameFacts SpecRun RunFacts RunRules SpecExpr ExprFacts SpecVars VarFacts SpecCalls ReplFacts
  LR SpecTypes SpecResolver StepsFacts PtrFacts SpecSession SessionFacts.
Import ListNotations.
Local Open Scope string_scope.
Local Open Scope Z_scope.
Local Open Scope list_scope.
Notation text := Repl.text.

(** ** Lists of one element *)
Lemma run_single E s t r : runs E s t r -> runs E s (T_EXPR_LIST (CHAIN_HEAD [t])) r.
Proof.
  intros R. pose proof (proj1 R) as Nf. apply run_list; [exact Nf|]. cbn [foldM].
  destruct r as [v s'| | | | | | | |]; try (eapply (lim_bind_fail E _ _ _ _ _ _ (lim_ev E _ _ _ R)); reflexivity); try congruence.
  eapply lim_bind; [apply lim_ev; exact R|]. apply lim_const. reflexivity.
Qed.

Section Values.
Variable E : env.
Variable H : host.

Lemma pp_var s c a arr n : integer_type c = true -> storage E s a (width c) ->
  pretty_print H s (T_LIVE_VAR (D_T c) a arr n) = Some (print_integer (value_at s c a)).
Proof.
  intros Hc Hs. cbn [pretty_print pp_1 pp_live_var]. apply storage_valid in Hs. rewrite value_at_load. unfold load_c.
  replace (csize c) with (width c) by (destruct c; reflexivity). rewrite Hs. replace (is_intty c) with true by (destruct c; try discriminate Hc; reflexivity). reflexivity.
Qed.

Lemma typed_same se se' l line : typed H se l line -> l_cond (se_lex se') = INITIAL -> se_names se' = se_names se -> includes (se_eval se') = includes (se_eval se) ->
  typed H se' l line.
Proof.
  intros (C & W & line' & P & W') C' N I. split; [exact C'|].
  assert (Ht : is_type se' = is_type se) by (unfold is_type; rewrite N; reflexivity). rewrite Ht. split; [exact W|].
  exists line'. split; [|exact W']. unfold preprocessed in *. rewrite I. exact P.
Qed.

Lemma variable_line se x line c a arr n : typed H se [IDENTIFIER x; p ";"] line ->
  means (se_eval se) (string_of_list_ascii x) (T_LIVE_VAR (D_T c) a arr n) -> integer_type c = true -> storage E (se_eval se) a (width c) ->
  exists st out, l_cond st = INITIAL /\ decimal (value_at (se_eval se) c a) out /\
    forall r, repl_round E H se line r <-> r = Continues (out ++ [newline]) (mksession st (se_names se) (se_eval se)).
Proof.
  intros Ty M Hc Hs.
  assert (Nt : ~ In typedef_token (line_text (LExp (One (Id x))))) by (cbn; intros [J|[J|[]]]; discriminate J).
  assert (Ni : forall s, LExp (One (Id x)) <> LInclude s) by discriminate.
  destruct (line_answers E H se (LExp (One (Id x))) line _ _ _ _ Ty I Ni ltac:(discriminate) Nt eq_refl eq_refl) as (st & C & A).
  rewrite set_fresh_same in A. exists st, (print_integer (value_at (se_eval se) c a)). split; [exact C|]. split; [apply print_decimal|]. intros r. rewrite A.
  apply (answers_value E H (mksession st (se_names se) (se_eval se)) _ (T_LIVE_VAR (D_T c) a arr n)); [|discriminate|apply pp_var; assumption].
  apply run_single. apply innermost. split; [exact M|reflexivity].
Qed.

Lemma number_fresh s f r v : number E s r v -> number E (set_fresh f s) r v.
Proof. intros N. destruct N; [constructor|apply (number_var E (set_fresh f s)); assumption|apply (number_ptr E (set_fresh f s)); assumption]. Qed.

Lemma assign_line se x e y rho line c a arr n : typed H se (IDENTIFIER x :: p "=" :: SpecSyntax.text e ++ [p ";"]) line ->
  SpecSyntax.fits (Assign Plain (Id x) e) -> int_exp e = Some y -> computed y ->
  (forall z, mentions y z -> number E (se_eval se) (lookup (se_eval se) z) (rho z)) ->
  means (se_eval se) (string_of_list_ascii x) (T_LIVE_VAR (D_T c) a arr n) -> integer_type c = true -> storage E (se_eval se) a (width c) ->
  new_nodes_plain (se_eval se) ->
  exists st s', l_cond st = INITIAL /\
    match denote rho y with
    | Some v => exists out w, decimal v out /\ only_writes E (set_fresh (fun i => i + 2) (se_eval se)) a (width c) s' /\
        clipped v w /\ wraps c w (value_at s' c a) /\ means s' (string_of_list_ascii x) (T_LIVE_VAR (D_T c) a arr n) /\ storage E s' a (width c) /\
        forall r, repl_round E H se line r <-> r = Continues (out ++ [newline]) (mksession st (se_names se) s')
    | None => only_gc E (set_fresh (fun i => i + 2) (se_eval se)) s' /\ forall r, repl_round E H se line r <-> r = Ends (Abort s')
    end.
Proof.
  intros Ty F Hy Hc Hr M Hi Hs Np. set (s := se_eval se) in *.
  assert (Nt : ~ In typedef_token (line_text (LExp (One (Assign Plain (Id x) e))))).
  { cbn [line_text texts]. rewrite in_app_iff. intros [J|[J|[]]]; [exact (proj1 no_typedef _ J)|discriminate J]. }
  assert (Ni : forall s, LExp (One (Assign Plain (Id x) e)) <> LInclude s) by discriminate.
  assert (Tr : forall k, line_tree (LExp (One (Assign Plain (Id x) e))) k = (T_EXPR_LIST (CHAIN_HEAD [T_ASSIGN k (ident x) (syntax y)]), k + 1)).
  { intros k. cbn [line_tree]. unfold elist. cbn [etrees etree]. rewrite (proj2 (proj1 int_tree e y k Hy)). reflexivity. }
  destruct (line_answers E H se (LExp (One (Assign Plain (Id x) e))) line _ _ _ _ Ty F Ni ltac:(discriminate) Nt (Tr _) (Tr _)) as (st & C & A). fold s in A.
  replace (set_fresh (fun _ => fresh s + 1 + 1) s) with (set_fresh (fun i => i + 2) s) in A by (unfold set_fresh; f_equal; lia).
  set (s1 := set_fresh (fun i => i + 2) s) in *.
  assert (Pl : plain s1 (fresh s + 1) (ident x)) by (left; apply (Np (fresh s + 1)); lia).
  pose proof (assign_expr E rho y s1 (fresh s + 1) (string_of_list_ascii x) c a arr n Pl M Hi Hs Hc
    (fun z Hz => number_fresh _ _ _ _ (Hr z Hz))) as R.
  destruct (denote rho y) as [v|].
  - destruct R as (s' & w & R & W & Cl & Wr & M' & N'). exists st, s'. split; [exact C|]. exists (print_integer v), w. split; [apply print_decimal|].
    split; [exact W|]. split; [exact Cl|]. split; [exact Wr|]. split; [exact M'|]. split; [inversion N'; assumption|]. intros r. rewrite A.
    apply (answers_value E H (mksession st (se_names se) s1) _ (T_INTEGER v)); [|discriminate|apply pp_integer]. apply run_single. exact R.
  - destruct R as (s' & R & W). exists st, s'. split; [exact C|]. split; [exact W|]. intros r. rewrite A.
    apply answers_ends; [apply run_single; exact R|]. intros ? ?; discriminate.
Qed.
End Values.

(** ** Rejected lines *)
Section Prefix.
Variable tn : text -> bool.
Lemma writes_step tag l s : writes tn tag l s -> forall st, l_cond st = cond_of tag ->
  match l with
  | [] => exists st', yylex REPL_T tn (S (List.length s)) st s = EndOfInput st'
  | t :: l' => exists st1 s1, yylex REPL_T tn (S (List.length s)) st s = Token t st1 s1 /\ l_cond st1 = cond_of (tag_word t) /\ writes tn (tag_word t) l' s1
  end.
Proof.
  induction 1; intros st Hst.
  - exists st. reflexivity.
  - specialize (IHwrites st Hst). assert (Hy : yylex REPL_T tn (S (List.length (c :: s))) st (c :: s) = yylex REPL_T tn (S (List.length s)) st s)
      by (cbn [List.length]; rewrite lex_white; [reflexivity|assumption|rewrite Hst; destruct tag; discriminate]). rewrite Hy. exact IHwrites.
  - specialize (IHwrites st Hst). assert (Hy : yylex REPL_T tn (S (List.length (x ++ s))) st (x ++ s) = yylex REPL_T tn (S (List.length s)) st s).
    { rewrite lex_name by eauto using entry_not_special. rewrite H0. apply yylex_fuel; rewrite ?app_length; lia. }
    rewrite Hy. exact IHwrites.
  - assert (L : (List.length u < S (List.length (u ++ s)))%nat) by (rewrite app_length; lia).
    destruct (lex_spelled REPL_T tn t u s _ st H Hst L) as (st1 & Hy & Hst1 & _). exists st1, s. auto.
  - exists (mklex INITIAL (l_buf st)), s. split; [apply lex_tag; assumption|]. split; [reflexivity|assumption].
  - exists (mklex INITIAL (l_buf st)), s. split; [apply lex_brace; assumption|]. split; [reflexivity|assumption].
Qed.
Lemma reads_prefix st s l0 st0 s0 : Session.reads tn st s l0 st0 s0 -> forall tag l, writes tn tag l s -> l_cond st = cond_of tag ->
  exists l1, l = l0 ++ l1 /\ l_cond st0 = cond_of (ends_tag tag l0).
Proof.
  induction 1 as [st s|st s t st1 s1 l0 st0 s0 Hy R IH]; intros tag l W C.
  - exists l. split; [reflexivity|exact C].
  - pose proof (writes_step _ _ _ W st C) as S. destruct l as [|t' l].
    + destruct S as (st' & S). rewrite Hy in S. discriminate S.
    + destruct S as (st1' & s1' & S & C1 & W1). rewrite Hy in S. injection S as <- <- <-. destruct (IH _ _ W1 C1) as (l1 & -> & C0).
      exists l1. split; [reflexivity|]. rewrite ends_tag_cons. exact C0.
Qed.
End Prefix.

Lemma rejected_parse se line l : l_cond (se_lex se) = INITIAL -> writes (is_type se) false l line -> ~ In typedef_token l -> syntax_error REPL_T l ->
  (exists st, replparse se line (Rejected (mksession st (se_names se) (se_eval se)))) /\
  forall r, replparse se line r -> exists l0 l1 st, l = l0 ++ l1 /\ l_cond st = cond_of (ends_tag false l0) /\ r = Rejected (mksession st (se_names se) (se_eval se)).
Proof.
  intros C W Nt Er. destruct (writes_scans _ _ _ _ W (se_lex se) C) as (st1 & S1 & C1). split.
  - exists st1. eapply rp_reject_end; eauto. intros [Q _]. exact (Nt Q).
  - intros r [l' st' ts' n' S' Nt' P'|l' st' k sp d n' S' It P'|l' st' rest R' Nt' B|l' st' S' Nt' B|l' S'|l' st' rest R' [It _] _ B].
    + destruct (scans_det _ _ _ _ _ _ _ S1 S') as [-> _]. destruct (Er _ _ _ P').
    + destruct (scans_det _ _ _ _ _ _ _ S1 S') as [-> _]. contradiction.
    + destruct (reads_prefix _ _ _ _ _ _ R' _ _ W C) as (l1 & -> & C2). exists l', l1, st'. auto.
    + destruct (scans_det _ _ _ _ _ _ _ S1 S') as [-> [= ->]]. exists l, [], st1. rewrite app_nil_r. auto.
    + destruct (scans_det _ _ _ _ _ _ _ S1 S') as [_ X]. discriminate X.
    + destruct (reads_det _ _ _ _ _ S1 _ _ _ R') as (l1 & -> & _). destruct Nt. apply in_or_app. auto.
Qed.

Definition no_tags (l : list token) : Prop := forall t, In t l -> tag_word t = false.
Lemma ends_no_tags l : no_tags l -> ends_tag false l = false.
Proof.
  intros N. unfold ends_tag. destruct (rev l) as [|t r] eqn:R; [reflexivity|]. apply N. apply in_rev. rewrite R. left. reflexivity.
Qed.
Lemma rejected_line E H se line l : l_cond (se_lex se) = INITIAL -> writes (is_type se) false l line -> ~ In typedef_token l -> syntax_error REPL_T l ->
  (exists r, repl_round E H se line r) /\
  forall r, repl_round E H se line r -> exists st, r = Continues [] (mksession st (se_names se) (se_eval se)) /\
    ((forall t, In t l -> t <> KW "STRUCT" /\ t <> KW "UNION") -> l_cond st = INITIAL).
Proof.
  intros C W Nt Er. destruct (rejected_parse se line l C W Nt Er) as [(st & R1) U].
  assert (Q : repl_parse_line H se line (NoStatement (mksession st (se_names se) (se_eval se)))) by (apply (pl_first H se line (Rejected _) R1); exact I).
  split; [eexists; apply rr_nothing; exact Q|].
  assert (V : forall r, repl_parse_line H se line r -> exists l0 l1 st, l = l0 ++ l1 /\ l_cond st = cond_of (ends_tag false l0) /\ r = NoStatement (mksession st (se_names se) (se_eval se))).
  { intros r0 [r R _|r t se1 R D _ _|r t se1 line' r' R D _ _ _]; destruct (U _ R) as (l0 & l1 & st0 & -> & C0 & ->); try discriminate D. exists l0, l1, st0. auto. }
  intros r [se0 Q0|Q0|Q0|t0 se0 fuel s names Q0 Ni Ev Nm|t0 se0 fuel v s out names Q0 Ni Ev Nv Nm Pp|t0 se0 fuel v s Q0 Ni Ev Pp|t0 se0 fuel r0 Q0 Ni Ev Nf Ns|y se0 fuel out s Q0 Ev|y se0 fuel r0 Q0 Ev Nf Ns];
    destruct (V _ Q0) as (l0 & l1 & st0 & -> & C0 & R0); try discriminate R0.
  injection R0 as ->. exists st0. split; [reflexivity|]. intros N. rewrite C0, ends_no_tags; [reflexivity|].
  intros t It. destruct (N t (in_or_app _ _ _ (or_introl It))) as [N1 N2]. destruct t; try reflexivity. cbn [tag_word].
  match goal with |- (String.eqb ?k _ || _)%bool = _ => destruct (String.eqb_spec k "STRUCT") as [-> |_]; [now destruct N1|]; destruct (String.eqb_spec k "UNION") as [-> |_]; [now destruct N2|reflexivity] end.
Qed.

Lemma several_statements E H se line xs ts n : l_cond (se_lex se) = INITIAL -> writes (is_type se) false (seq_text line_text xs) line ->
  (2 <= List.length xs)%nat -> Forall line_fits xs -> ~ In typedef_token (seq_text line_text xs) -> seq_tree line_tree xs (fresh (se_eval se)) = (ts, n) ->
  forall r, repl_round E H se line r <-> r = Quits.
Proof.
  intros C W L F Nt T. destruct (writes_scans _ _ _ _ W (se_lex se) C) as (st1 & S1 & C1).
  assert (Nn : xs <> []) by (destruct xs; [cbn in L; lia|discriminate]).
  assert (Lt : (2 <= List.length ts)%nat).
  { assert (X : forall l k us m, seq_tree line_tree l k = (us, m) -> List.length us = List.length l).
    { induction l as [|x l IH]; intros k us m; cbn [seq_tree]; [intros [= <- <-]; reflexivity|].
      destruct (line_tree x k) as [u k1]. destruct (seq_tree line_tree l k1) as [us' m'] eqn:Q. intros [= <- <-]. cbn [List.length]. f_equal. eapply IH. exact Q. }
    rewrite (X _ _ _ _ T). exact L. }
  pose proof (replparse_accept se line _ st1 ts n S1 Nt (only _ _ _ _ _ (lines_parse xs _ _ _ Nn F T))) as R1.
  set (a := Accepted ts _) in R1. assert (D : do_parse a = ParsedExit) by (unfold a; destruct ts as [|t [|t' ts]]; cbn in Lt; try lia; reflexivity).
  assert (V : forall r, repl_parse_line H se line r <-> r = ParsedExit).
  { intros r. split.
    - intros [r0 R0 _|r0 t se1 R0 D0 _ _|r0 t se1 line' r' R0 D0 _ _ _]; apply R1 in R0; subst r0; congruence.
    - intros ->. rewrite <- D. apply pl_first; [apply R1; reflexivity|]. rewrite D. exact I. }
  intros r. split; [|intros ->; apply rr_exit, V; reflexivity].
  intros [se0 Q0|Q0|Q0|t0 se0 fuel s names Q0 Ni Ev Nm|t0 se0 fuel v s out names Q0 Ni Ev Nv Nm Pp|t0 se0 fuel v s Q0 Ni Ev Pp|t0 se0 fuel r0 Q0 Ni Ev Nf Ns|y se0 fuel out s Q0 Ev|y se0 fuel r0 Q0 Ev Nf Ns];
    apply V in Q0; try discriminate Q0. reflexivity.
Qed.

(** What is no part of the language of the prompt. *)
Definition statement_words : list string := ["IF"; "ELSE"; "WHILE"; "FOR"; "RETURN"; "BREAK"; "REPL"; "DO"; "CONTINUE"; "SWITCH"; "CASE"; "DEFAULT"; "GOTO"].
Lemma no_statements w k : In k statement_words -> In (KW k) w -> syntax_error REPL_T w.
Proof.
  intros Hk Hw n t m H. pose proof (accepted_terminal REPL_T n w t m (KW k) H Hw) as B. simpl class in B.
  assert (F : existsb (sym_eqb (K k)) (terminals_of REPL_T) = true) by (apply existsb_exists; exists (K k); split; [exact B|apply sym_eqb_eq; reflexivity]).
  repeat (destruct Hk as [<-|Hk]; [vm_compute in F; discriminate F|]). destruct Hk.
Qed.
Lemma no_functions u v : syntax_error REPL_T (u ++ PUNCT ")" :: PUNCT "{" :: v).
Proof.
  intros n t m H. pose proof (accepted_after REPL_T n _ t m _ _ _ _ H eq_refl) as B.
  vm_compute in B; repeat (destruct B as [B|B]; [discriminate B|]); exact B.
Qed.
Lemma no_pointer_typedef u x v : syntax_error REPL_T (u ++ PUNCT "*" :: TYPE_NAME x :: v).
Proof.
  intros n t m H. pose proof (accepted_after REPL_T n _ t m _ _ _ _ H eq_refl) as B. change (class (TYPE_NAME x)) with (K "TYPE_NAME") in B.
  vm_compute in B; repeat (destruct B as [B|B]; [discriminate B|]); exact B.
Qed.
Lemma no_line : syntax_error REPL_T [].
Proof. apply (stops_error REPL_T 5). vm_compute. reflexivity. Qed.

(** ** Typedefs *)
Lemma writes_ext tn tn' tag l s : (forall y, tn y = tn' y) -> writes tn tag l s -> writes tn' tag l s.
Proof.
  intros X. induction 1; try (constructor; assumption).
  apply wr_token; [|assumption]. inversion H; subst; try (econstructor; eassumption).
  - eapply sp_name; eauto; rewrite <- X; assumption.
  - eapply sp_type; eauto; rewrite <- X; assumption.
Qed.
Lemma add_name_is x y names : is_typename y (add_name x names) = (is_typename y names || String.eqb y x)%bool.
Proof.
  unfold is_typename, add_name. destruct (in_include_file names); cbn [type_names include_type_names]; rewrite existsb_app; cbn [existsb]; rewrite orb_false_r;
    destruct (existsb (String.eqb y) (type_names names)), (existsb (String.eqb y) (include_type_names names)), (String.eqb y x); reflexivity.
Qed.
Lemma typedef_text ss : In (SStore STypedef) (spec_list ss) -> In typedef_token (specs_text ss).
Proof.
  induction ss; cbn [spec_list specs_text].
  - intros [-> |[]]. left. reflexivity.
  - rewrite !in_app_iff. intros [I|[-> |[]]]; [left; apply IHss, I|right; left; reflexivity].
Qed.
Lemma typedef_tree ss : In (SStore STypedef) (spec_list ss) -> forall n ts m, specs_tree ss n = (ts, m) -> forall us, chain_has T_TYPEDEF (CHAIN_HEAD (ts ++ us)) = true.
Proof.
  intros I n ts m T us. unfold chain_has. cbn [chain_elems]. rewrite existsb_app. apply orb_true_iff. left. revert n ts m T.
  induction ss; cbn [spec_list specs_tree] in *; intros n ts m T.
  - destruct I as [-> |[]]. cbn in T. injection T as <- <-. reflexivity.
  - destruct (specs_tree ss n) as [ts0 n0] eqn:T0. destruct (spec_tree s n0) as [t n1] eqn:T1. injection T as <- <-. rewrite existsb_app. apply in_app_iff in I. destruct I as [I|[-> |[]]].
    + rewrite (IHss I _ _ _ T0). reflexivity.
    + cbn in T1. injection T1 as <- <-. cbn [existsb]. apply orb_true_r.
Qed.

Lemma typedef_first se x ss line d t n ts n1 k : l_cond (se_lex se) = INITIAL -> d = Declr k (DName x) -> specs_fit ss -> In (SStore STypedef) (spec_list ss) ->
  writes (is_type se) false (decl_text (Decl ss (ID1 d None))) line -> specs_tree ss (fresh (se_eval se)) = (ts, n1) ->
  t = T_DECL n1 (CHAIN_HEAD ts) (CHAIN_HEAD [pointers k (ident x)]) -> n = n1 + 1 ->
  exists st, l_cond st = INITIAL /\ forall r, replparse se line r <->
    r = Accepted [t] (mksession st (add_name (string_of_list_ascii x) (se_names se)) (set_fresh (fun _ => n) (se_eval se))).
Proof.
  intros C -> F It W T -> ->. destruct (writes_scans _ _ _ _ W (se_lex se) C) as (st1 & S1 & C1).
  change (decl_text (Decl ss (ID1 (Declr k (DName x)) None))) with (line_text (LDecl (Decl ss (ID1 (Declr k (DName x)) None)))) in *. rewrite ends_tag_line in C1.
  exists st1. split; [exact C1|].
  assert (Tr : line_tree (LDecl (Decl ss (ID1 (Declr k (DName x)) None))) (fresh (se_eval se)) = (T_DECL n1 (CHAIN_HEAD ts) (CHAIN_HEAD [pointers k (ident x)]), n1 + 1)).
  { cbn [line_tree]. unfold decl_tree. rewrite T. reflexivity. }
  assert (Nm : maybe_add_typenames n1 (CHAIN_HEAD ts) (CHAIN_HEAD [pointers k (ident x)]) (se_names se) = add_name (string_of_list_ascii x) (se_names se)).
  { unfold maybe_add_typenames. rewrite <- (app_nil_r ts). rewrite (typedef_tree ss It _ _ _ T []). cbn [find_ids_to_map_to_typenames fold_left]. clear.
    induction k; [reflexivity|exact IHk]. }
  rewrite <- Nm. apply (replparse_typedef se line _ st1 n1 (CHAIN_HEAD ts) (CHAIN_HEAD [pointers k (ident x)]) (n1 + 1) S1).
  - cbn [line_text decl_text]. apply in_or_app. left. apply typedef_text, It.
  - apply one_line; [|exact Tr]. cbn. repeat split; auto.
Qed.

Section Typedef.
Variable E : env.
Variable H : host.
Lemma typedef_line se x ss line ts1 n1 ts n2 : typed_typedef H se x (specs_text ss ++ [IDENTIFIER x; p ";"]) (specs_text ss ++ [TYPE_NAME x; p ";"]) line ->
  specs_fit ss -> In (SStore STypedef) (spec_list ss) ->
  specs_tree ss (fresh (se_eval se)) = (ts1, n1) -> specs_tree ss (n1 + 1) = (ts, n2) ->
  exists st names, l_cond st = INITIAL /\ (forall y, is_typename y names = (is_typename y (se_names se) || String.eqb y (string_of_list_ascii x))%bool) /\
    forall r, repl_round E H se line r <->
      answers E H (mksession st names (set_fresh (fun _ => n2 + 1) (se_eval se))) (T_DECL n2 (CHAIN_HEAD (ts ++ [ident x])) NULL) r.
Proof.
  intros (C & W & line' & P & W') F It T1 T2.
  destruct (typedef_first se x ss line _ _ _ _ _ O C eq_refl F It W T1 eq_refl eq_refl) as (st1 & C1 & R1).
  set (se1 := mksession st1 (add_name (string_of_list_ascii x) (se_names se)) (set_fresh (fun _ => n1 + 1) (se_eval se))) in *.
  assert (P1 : preprocessed H se1 line line') by exact P. destruct (preprocessed_line _ _ _ _ P1) as (w & Hw & Hl).
  set (d := LDecl (Specs (SMore ss (SBase (BName x))))).
  assert (W2' : writes (is_type se1) false (line_text d) (w ++ line')).
  { assert (W2 : writes (is_type se1) false (line_text d) line').
    { cbn [d line_text decl_text specs_text spec_text base_text]. rewrite <- app_assoc. cbn [app]. eapply writes_ext; [|exact W'].
      intros y. symmetry. exact (add_name_is _ _ _). }
    destruct Hw as [->| ->]; [exact W2|]. cbn [app]. constructor; [exact newline_white|exact W2]. }
  destruct (writes_scans _ _ _ _ W2' (se_lex se1) C1) as (st2 & S2 & C2). rewrite ends_tag_line in C2.
  assert (Tr : line_tree d (fresh (se_eval se1)) = (T_DECL n2 (CHAIN_HEAD (ts ++ [ident x])) NULL, n2 + 1)).
  { cbn [d line_tree]. unfold decl_tree. change (fresh (se_eval se1)) with (n1 + 1). cbn [specs_tree]. rewrite T2. reflexivity. }
  pose proof (replparse_typedef se1 (w ++ line') _ st2 _ _ _ _ S2 ltac:(cbn [d line_text decl_text specs_text]; apply in_or_app; left; apply in_or_app; left; apply typedef_text, It)
    (one_line d _ _ _ ltac:(cbn; auto) Tr)) as R2.
  assert (Nm : maybe_add_typenames n2 (CHAIN_HEAD (ts ++ [ident x])) NULL (se_names se1) = se_names se1).
  { unfold maybe_add_typenames. destruct (chain_has _ _); reflexivity. }
  rewrite Nm in R2. exists st2, (se_names se1). split; [exact C2|]. split; [intros y; apply add_name_is|]. apply round_answers; [reflexivity|reflexivity|].
  intros r. split.
  - intros [r0 R0 I0|r0 t0 se0 R0 D0 I0 L0|r0 t0 se0 line0 r' R0 D0 I0 L0 R'].
    + apply R1 in R0. subst r0. cbn [do_parse] in I0. discriminate I0.
    + apply R1 in R0. subst r0. injection D0 as <- <-. rewrite Hl in L0. discriminate L0.
    + apply R1 in R0. subst r0. injection D0 as <- <-. rewrite Hl in L0. injection L0 as <-. apply R2 in R'. subst r'. reflexivity.
  - intros ->. match goal with |- repl_parse_line _ _ _ ?s => change s with (do_parse (Accepted [T_DECL n2 (CHAIN_HEAD (ts ++ [ident x])) NULL]
      (mksession st2 (se_names se1) (set_fresh (fun _ => n2 + 1) (se_eval se1))))) end.
    eapply pl_second; [apply R1; reflexivity|reflexivity|reflexivity|exact Hl|]. apply R2. reflexivity.
Qed.

Lemma words_tree ss : Forall word (spec_list ss) -> exists sp, forall n, specs_tree ss n = (map T_SPEC sp, n).
Proof.
  assert (One : forall s, word s -> exists w, forall n, spec_tree s n = (T_SPEC w, n)).
  { intros [s|b| |]; cbn [word]; try contradiction; [intros _; eexists; reflexivity|]. destruct b; try contradiction; intros _; eexists; reflexivity. }
  induction ss; cbn [spec_list specs_tree]; intros F.
  - inversion F; subst. destruct (One s H2) as [w W]. exists [w]. intros n. rewrite W. reflexivity.
  - apply Forall_app in F. destruct F as [F1 F2]. destruct (IHss F1) as [sp Sp]. inversion F2; subst. destruct (One s H2) as [w W].
    exists (sp ++ [w]). intros n. rewrite Sp, W, map_app. reflexivity.
Qed.

Lemma unknown_typedef s k sp x : lookup s x = NULL -> zfind k (statics s) = None ->
  exists s', only_gc E s s' /\ runs E s (T_DECL k (CHAIN_HEAD (map T_SPEC sp ++ [T_IDENTIFIER x])) NULL) (Die s').
Proof.
  intros Hx Hl. exists (after_tick E s). split; [apply gc_only_tick|]. apply lim_runs; [discriminate|]. cbn [evaluate_1].
  set (specs := CHAIN_HEAD (map T_SPEC sp ++ [T_IDENTIFIER x])).
  assert (Hx' : runs E (after_tick E s) (T_IDENTIFIER x) (Die (after_tick E s))).
  { apply identifier_runs. replace (lookup (after_tick E s) x) with (lookup s x) by reflexivity. rewrite Hx. reflexivity. }
  destruct (SpecTypesFacts.resolve_self sp (T_IDENTIFIER x) [] (SpecTypes.self_name x)) as [A B].
  destruct (SpecTypesFacts.within_dec (SpecTypes.type_part sp)) as [Q|Q]; rewrite SpecTypesFacts.within_sane in Q.
  - apply (lim_after E _ _ (fun k0 => bind (k_ev k0 (T_IDENTIFIER x)) (fun type => if chain_has T_TYPEDEF specs then handle_typedef E type NULL
      else if chain_has T_EXTERN specs then handle_extern_decls E k0 type NULL else if chain_has T_STATIC specs then handle_static_decl E k0 type k specs NULL else ret NULL)) s (after_tick E s)).
    + intros k0. rewrite Hl. unfold eval_decl, resolve_specs. unfold bind at 1. rewrite (bind_eq _ _ _ _ _ _ _ (tick_eq E s)).
      fold specs in A. rewrite (A Q : resolve_decl_specs_to_type specs = _). reflexivity.
    + apply (lim_bind_fail E _ _ _ _ _ (Die (after_tick E s)) (lim_ev E _ _ _ Hx')). reflexivity.
  - apply (lim_after E _ _ (fun k0 => die) s (after_tick E s)); [|apply lim_const; reflexivity].
    intros k0. rewrite Hl. unfold eval_decl, resolve_specs. unfold bind at 1. rewrite (bind_eq _ _ _ _ _ _ _ (tick_eq E s)).
    fold specs in B. rewrite (B Q : resolve_decl_specs_to_type specs = _). reflexivity.
Qed.
End Typedef.

(** ** Identities only grow *)
Definition grows (p : production) : Prop := forall v n, n <= snd (p_act p v n).
Lemma all_grow T : Forall grows (productions T).
Proof.
  unfold productions. apply Forall_app. split; [|destruct T]; repeat (apply Forall_cons; [intros v n; cbn [p_act]; unfold same, node, lnode, comp; cbn [snd]; try lia|]); try apply Forall_nil.
Qed.
Lemma value_grows T : (forall X i r d, derives T X i r d -> forall n, n <= snd (value d n)) /\
  (forall Xs i r l, derives_list T Xs i r l -> forall n, n <= snd ((fix values (l : list ptree) (n : Z) : list val * Z :=
        match l with [] => ([], n) | d :: l => let (v, n) := value d n in let (vs, n) := values l n in (v :: vs, n) end) l n)).
Proof.
  apply derives_mutind.
  - intros t i n. cbn. lia.
  - intros q i r l Hq _ IH _ n. cbn [value]. specialize (IH n). destruct (_ l n) as [vs n1]. cbn [snd] in IH.
    pose proof (proj1 (Forall_forall _ _) (all_grow T) q Hq (fun i => nth (pred i) vs VNone) n1). cbn beta in *. lia.
  - intros i n. cbn. lia.
  - intros X Xs i j r d l _ IHd _ IHl n. specialize (IHd n). destruct (value d n) as [v n1]. cbn [snd] in IHd. specialize (IHl n1).
    destruct (_ l n1) as [vs n2]. cbn [snd] in IHl |- *. lia.
Qed.
Lemma parses_grows T n w t m : parses T n w t m -> n <= m.
Proof. intros (d & D & V). pose proof (proj1 (value_grows T) _ _ _ _ D n) as G. rewrite V in G. exact G. Qed.

Section Sessions.
Variable E : env.
Variable H : host.
Lemma steps_fresh s m : fresh s <= m -> steps E s (set_fresh (fun _ => m) s).
Proof.
  intros L. replace m with (fresh s + Z.of_nat (Z.to_nat (m - fresh s))) by lia. clear L. generalize (Z.to_nat (m - fresh s)). intros k.
  induction k as [|k IH].
  - rewrite Z.add_0_r, set_fresh_same. apply steps_refl.
  - eapply steps_more; [exact IH|]. replace (set_fresh (fun _ => fresh s + Z.of_nat (S k)) s) with (set_fresh (fun n => n + 1) (set_fresh (fun _ => fresh s + Z.of_nat k) s)); [apply st_fresh|].
    unfold set_fresh. cbn. f_equal. lia.
Qed.
Definition grown (s s' : State.state) : Prop := exists m, fresh s <= m /\ s' = set_fresh (fun _ => m) s.
Lemma grown_refl s : grown s s.
Proof. exists (fresh s). split; [lia|]. symmetry. apply set_fresh_same. Qed.
Lemma grown_trans s s' s'' : grown s s' -> grown s' s'' -> grown s s''.
Proof. intros (m & L & ->) (m' & L' & ->). exists m'. cbn in L'. split; [lia|reflexivity]. Qed.
Lemma replparse_grown se line r : replparse se line r -> match r with Accepted _ se' | Rejected se' => grown (se_eval se) (se_eval se') | _ => True end.
Proof.
  intros [l st ts n S Nt P|l st k sp d n S It P|l st rest R Nt B|l st S Nt B|l S|l st rest R It X B]; cbn [se_eval]; try exact I; try apply grown_refl;
    (exists n; split; [eapply parses_grows; eassumption|reflexivity]).
Qed.
Lemma do_parse_grown se line r : replparse se line r -> match do_parse r with Statement _ se' | NoStatement se' => grown (se_eval se) (se_eval se') | _ => True end.
Proof. intros R. apply replparse_grown in R. destruct r as [[|t [|t' ts]] se'|se'| |]; cbn [do_parse]; auto. Qed.
Lemma parse_line_grown se line r : repl_parse_line H se line r -> match r with Statement _ se' | NoStatement se' => grown (se_eval se) (se_eval se') | _ => True end.
Proof.
  intros [r0 R _|r0 t se1 R D _ _|r0 t se1 line' r' R D _ _ R']; [apply (do_parse_grown se line), R|exact I|].
  pose proof (do_parse_grown _ _ _ R) as G. rewrite D in G. pose proof (do_parse_grown _ _ _ R') as G'.
  destruct (do_parse r'); auto; eapply grown_trans; eassumption.
Qed.
(** Inspecting a name evaluates the inspection, printing aside. *)
Lemma inspect_evaluated fuel x s out s' : inspect E H fuel x s = Ok out s' -> evaluate_expr E (S fuel) (T_INSPECT (T_IDENTIFIER x)) s = Ok NULL s'.
Proof.
  unfold inspect. intros I. change (evaluate_expr E (S fuel) (T_INSPECT (T_IDENTIFIER x)) s) with (eval_inspect E (Eval.K E fuel) (T_IDENTIFIER x) s).
  unfold eval_inspect. apply RunFacts.bind_ok in I. destruct I as (obj & s1 & R & I). rewrite (RunRules.bind_eq _ _ _ _ _ _ _ R). clear R.
  assert (T : forall B s2 (k : text -> M B) (b : B), bind (print_object_type x obj) k s2 = Ok b s' -> exists z, k z s2 = Ok b s').
  { intros B s2 k b Q. apply RunFacts.bind_ok in Q. destruct Q as (z & s3 & P & Q). unfold print_object_type, bind, get in P.
    destruct (handle_pointer_type _) as [st ty]. destruct (view_comp s2 ty) as [c|]; [destruct (cd_id c)|destruct ty]; try discriminate P; injection P as <- <-; eauto. }
  assert (Sh : forall t B s2 (k : text -> M B) (b : B) s3, bind (show H t) k s2 = Ok b s3 -> exists z, k z s2 = Ok b s3).
  { intros t B s2 k b s4 Q. apply RunFacts.bind_ok in Q. destruct Q as (z & s3 & P & Q). unfold show, bind, get in P. destruct (pretty_print H s2 t); [|discriminate P].
    injection P as <- <-. eauto. }
  assert (Pl : forall s2 z s3, print_object_locus H x s2 = Ok z s3 -> s3 = s2).
  { intros s2 z s3 P. unfold print_object_locus, bind, get in P. destruct (h_place H s2 x). injection P as _ <-. reflexivity. }
  assert (Rest : forall (k : M text), bind (tick E) (fun _ => bind (print_object_type x obj) (fun a => bind k (fun b => ret (a ++ b)))) s1 = Ok out s' ->
      exists b, k (after_tick E s1) = Ok b s').
  { intros k Q. rewrite (RunRules.bind_eq _ _ _ _ _ _ _ (RunFacts.tick_eq E s1)) in Q. apply T in Q. destruct Q as (z & Q).
    apply RunFacts.bind_ok in Q. destruct Q as (b & s3 & P & Q). injection Q as _ <-. eauto. }
  destruct obj; try (injection I as _ <-; reflexivity); apply Rest in I; destruct I as (b & I);
    rewrite (RunRules.bind_eq _ _ _ _ _ _ _ (RunFacts.tick_eq E s1)); try (injection I as _ <-; reflexivity); try (apply Pl in I; subst s'; reflexivity).
  apply RunFacts.bind_ok in I. destruct I as (z & s3 & P & I). apply Sh in P. destruct P as (z' & P). injection P as _ <-.
  apply RunFacts.bind_ok in I. destruct I as (z2 & s3 & P & I). unfold print_sizeof_object in P.
  rewrite (RunRules.bind_eq _ _ _ _ _ _ _ (RunFacts.tick_eq E _)) in P. rewrite (RunRules.bind_eq _ _ _ _ _ _ _ (RunFacts.tick_eq E _)). apply RunFacts.bind_ok in P. destruct P as (v & s4 & P & Q).
  unfold evaluate_expr in P. rewrite (RunRules.bind_eq _ _ _ _ _ _ _ P). apply Sh in Q. destruct Q as (z3 & Q). injection Q as _ <-.
  apply RunFacts.bind_ok in I. destruct I as (z4 & s5 & Q & I). injection I as _ <-.
  match goal with |- context [if ?b then _ else _] => destruct b end; [discriminate Q|]. apply Pl in Q. subst s5. reflexivity.
Qed.
Lemma round_steps se line out se' : repl_round E H se line (Continues out se') -> steps E (se_eval se) (se_eval se').
Proof.
  assert (G : forall s s', grown s s' -> steps E s s') by (intros s s' (m & L & ->); apply steps_fresh, L).
  intros R. inversion R as [se0 Q0|Q0|Q0|t0 se0 fuel s names Q0 Ni Ev Nm|t0 se0 fuel v s out0 names Q0 Ni Ev Nv Nm Pp|t0 se0 fuel v s Q0 Ni Ev Pp|t0 se0 fuel r0 Q0 Ni Ev Nf Ns|y se0 fuel out0 s Q0 Ev|y se0 fuel r0 Q0 Ev Nf Ns]; subst;
    apply parse_line_grown in Q0; cbn [se_eval].
  - apply G, Q0.
  - eapply steps_trans; [apply G, Q0|]. apply (ev_steps E fuel t0). unfold evaluate_expr in Ev. rewrite Ev. reflexivity.
  - eapply steps_trans; [apply G, Q0|]. apply (ev_steps E fuel t0). unfold evaluate_expr in Ev. rewrite Ev. reflexivity.
  - eapply steps_trans; [apply G, Q0|]. apply inspect_evaluated in Ev. apply (ev_steps E (S fuel) (T_INSPECT (T_IDENTIFIER y))). unfold evaluate_expr in Ev. rewrite Ev. reflexivity.
Qed.
Lemma rounds_steps se lines outs se' : repl_rounds E H se lines outs se' -> steps E (se_eval se) (se_eval se').
Proof. induction 1; [apply steps_refl|]. eapply steps_trans; [eapply round_steps; eassumption|assumption]. Qed.
End Sessions.

Section Typedef2.
Variable E : env.
Variable H : host.
Lemma words_typedef se x ss line : typed_typedef H se x (specs_text ss ++ [IDENTIFIER x; p ";"]) (specs_text ss ++ [TYPE_NAME x; p ";"]) line ->
  In (SStore STypedef) (spec_list ss) -> Forall word (spec_list ss) -> lookup (se_eval se) (string_of_list_ascii x) = NULL ->
  (forall l, fresh (se_eval se) <= l -> zfind l (statics (se_eval se)) = None) ->
  exists s', only_gc E (set_fresh (fun i => i + 2) (se_eval se)) s' /\ forall r, repl_round E H se line r <-> r = Ends (Die s').
Proof.
  intros Ty It Wd Lk St. destruct (words_tree ss Wd) as (sp & Tr). set (s := se_eval se) in *.
  assert (F : specs_fit ss).
  { clear - Wd. induction ss; cbn [spec_list specs_fit] in *; [|apply Forall_app in Wd; destruct Wd as [W1 Wd]; split; [auto|]];
      inversion Wd as [|? ? W]; subst; destruct s; cbn in W |- *; auto; contradiction. }
  destruct (typedef_line E H se x ss line _ _ _ _ Ty F It (Tr _) (Tr _)) as (st & names & C & Nm & A). fold s in A.
  replace (set_fresh (fun _ => fresh s + 1 + 1) s) with (set_fresh (fun i => i + 2) s) in A by (unfold set_fresh; f_equal; lia).
  destruct (unknown_typedef E (set_fresh (fun i => i + 2) s) (fresh s + 1) sp (string_of_list_ascii x) Lk (St (fresh s + 1) ltac:(lia))) as (s' & G & R).
  exists s'. split; [exact G|]. intros r. rewrite A. apply answers_ends; [exact R|]. intros ? ?; discriminate.
Qed.

Lemma stars_snoc k : SpecSyntax.stars (S k) = SpecSyntax.stars k ++ [p "*"].
Proof. unfold SpecSyntax.stars. induction k; [reflexivity|]. cbn [repeat app] in *. rewrite <- IHk. reflexivity. Qed.
Lemma no_semicolon_words ss : Forall word (spec_list ss) -> ~ In (PUNCT ";") (specs_text ss).
Proof.
  assert (One : forall s, word s -> ~ In (PUNCT ";") (spec_text s)).
  { intros [s|b| |]; cbn [word]; try contradiction; [intros _; destruct s|destruct b; try contradiction; intros _]; cbn; intuition discriminate. }
  induction ss; cbn [spec_list specs_text]; intros F.
  - inversion F; subst. apply One. assumption.
  - apply Forall_app in F. destruct F as [F1 F2]. inversion F2; subst. rewrite in_app_iff. intros [J|J]; [exact (IHss F1 J)|exact (One _ H2 J)].
Qed.
Lemma writes_reads tn l : forall tag s l', writes tn tag (l ++ l') s -> forall st, l_cond st = cond_of tag -> exists st' s', Session.reads tn st s l st' s'.
Proof.
  induction l as [|t l IH]; intros tag s l' W st C; [exists st, s; constructor|].
  pose proof (writes_step tn _ _ _ W st C) as (st1 & s1 & Hy & C1 & W1). destruct (IH _ _ _ W1 st1 C1) as (st' & s' & R).
  exists st', s'. econstructor; eassumption.
Qed.
Lemma pointer_typedef se x ss k line ts n1 : typed_typedef H se x (specs_text ss ++ SpecSyntax.stars (S k) ++ [IDENTIFIER x; p ";"]) (specs_text ss ++ SpecSyntax.stars (S k) ++ [TYPE_NAME x; p ";"]) line ->
  In (SStore STypedef) (spec_list ss) -> Forall word (spec_list ss) -> specs_tree ss (fresh (se_eval se)) = (ts, n1) ->
  exists names, (forall y, is_typename y names = (is_typename y (se_names se) || String.eqb y (string_of_list_ascii x))%bool) /\
    (exists r, repl_round E H se line r) /\
    forall r, repl_round E H se line r -> exists st, l_cond st = INITIAL /\ r = Continues [] (mksession st names (set_fresh (fun _ => n1 + 1) (se_eval se))).
Proof.
  intros (C & W & line' & P & W') It Wd T1.
  assert (F : specs_fit ss).
  { clear - Wd. induction ss; cbn [spec_list specs_fit] in *; [|apply Forall_app in Wd; destruct Wd as [W1 Wd]; split; [auto|]];
      inversion Wd as [|? ? W]; subst; destruct s; cbn in W |- *; auto; contradiction. }
  assert (Wt : writes (is_type se) false (decl_text (Decl ss (ID1 (Declr (S k) (DName x)) None))) line).
  { cbn [decl_text idecls_text]. unfold idecl_text. cbn [declr_text direct_text]. rewrite app_nil_r, <- !app_assoc. exact W. }
  destruct (typedef_first se x ss line _ _ _ _ _ (S k) C eq_refl F It Wt T1 eq_refl eq_refl) as (st1 & C1 & R1).
  set (se1 := mksession st1 (add_name (string_of_list_ascii x) (se_names se)) (set_fresh (fun _ => n1 + 1) (se_eval se))) in *.
  assert (P1 : preprocessed H se1 line line') by exact P. destruct (preprocessed_line _ _ _ _ P1) as (w & Hw & Hl).
  set (bad := specs_text ss ++ SpecSyntax.stars (S k) ++ [TYPE_NAME x]).
  assert (W2' : writes (is_type se1) false (bad ++ [p ";"]) (w ++ line')).
  { assert (W2 : writes (is_type se1) false (bad ++ [p ";"]) line').
    { unfold bad. rewrite <- !app_assoc. cbn [app]. eapply writes_ext; [|exact W']. intros y. symmetry. exact (add_name_is _ _ _). }
    destruct Hw as [->| ->]; [exact W2|]. cbn [app]. constructor; [exact newline_white|exact W2]. }
  assert (Dead : forall v, syntax_error REPL_T (bad ++ v)).
  { intros v. unfold bad. rewrite stars_snoc. rewrite <- !app_assoc. cbn [app]. rewrite app_assoc. apply no_pointer_typedef. }
  assert (Quiet : ~ changes_names bad).
  { intros [_ J]. unfold bad in J. rewrite !in_app_iff in J. destruct J as [J|[J|[J|[]]]]; [exact (no_semicolon_words ss Wd J)| |discriminate J].
    apply repeat_spec in J. discriminate J. }
  destruct (writes_scans _ _ _ _ W2' (se_lex se1) C1) as (st2 & S2 & C2).
  assert (NoTag : forall l0 l1, bad ++ [p ";"] = l0 ++ l1 -> ends_tag false l0 = false).
  { intros l0 l1 B. apply ends_no_tags. intros t J. assert (J' : In t (bad ++ [p ";"])) by (rewrite B; apply in_or_app; auto). clear - J' Wd.
    unfold bad in J'. rewrite !in_app_iff in J'. destruct J' as [[J|[J|[J|[]]]]|[J|[]]]; try (subst t; reflexivity).
    - induction ss; cbn [spec_list specs_text] in *.
      + inversion Wd as [|? ? Q]; subst. destruct s as [s|b| |]; cbn [word] in Q; try contradiction; [destruct s|destruct b; try contradiction]; destruct J as [J|[]]; subst t; reflexivity.
      + apply Forall_app in Wd. destruct Wd as [F1 F2]. apply in_app_iff in J. destruct J as [J|J]; [exact (IHss F1 J)|].
        inversion F2 as [|? ? Q]; subst. destruct s as [s|b| |]; cbn [word] in Q; try contradiction; [destruct s|destruct b; try contradiction]; destruct J as [J|[]]; subst t; reflexivity.
    - apply repeat_spec in J. subst t. reflexivity. }
  assert (R2 : forall r, replparse se1 (w ++ line') r -> exists st, l_cond st = INITIAL /\ r = Rejected (mksession st (se_names se1) (se_eval se1))).
  { intros r [l' st' ts' n' S' Nt' P'|l' st' k' sp d n' S' It' P'|l' st' rest R' Nt' B|l' st' S' Nt' B|l' S'|l' st' rest R' It' X B].
    - destruct (scans_det _ _ _ _ _ _ _ S2 S') as [-> _]. destruct (Dead _ _ _ _ P').
    - destruct (scans_det _ _ _ _ _ _ _ S2 S') as [-> _]. destruct (Dead _ _ _ _ P').
    - destruct (reads_prefix _ _ _ _ _ _ R' _ _ W2' C1) as (l1 & Bl & C0). exists st'. split; [|reflexivity]. rewrite C0, (NoTag _ _ Bl). reflexivity.
    - destruct (scans_det _ _ _ _ _ _ _ S2 S') as [-> [= ->]]. exists st2. split; [|reflexivity]. rewrite C2, (NoTag _ [] (eq_sym (app_nil_r _))). reflexivity.
    - destruct (scans_det _ _ _ _ _ _ _ S2 S') as [_ Q]. discriminate Q.
    - exfalso. destruct (reads_prefix _ _ _ _ _ _ R' _ _ W2' C1) as (l1 & Bl & _).
      assert (Hb : exists l2, l' = bad ++ l2).
      { destruct It' as [_ Sm]. clear - Bl Sm Quiet It. destruct l1 as [|t l1] using rev_ind.
        - rewrite app_nil_r in Bl. exists [p ";"]. auto.
        - exfalso. rewrite app_assoc in Bl. apply app_inj_tail in Bl. destruct Bl as [Bl _]. apply Quiet. split.
          + unfold bad. apply in_or_app. left. apply typedef_text, It.
          + rewrite Bl. apply in_or_app. left. exact Sm. }
      destruct Hb as (l2 & ->). destruct (X bad l2 eq_refl Quiet) as (l3 & n & t & m & Pp). destruct (Dead _ _ _ _ Pp). }
  assert (Ex : exists r, replparse se1 (w ++ line') r).
  { destruct (writes_reads (is_type se1) bad false (w ++ line') [p ";"] W2' (se_lex se1) C1) as (st' & s' & Rd). eexists. eapply rp_reject; [exact Rd|exact Quiet|].
    intros l' n t m. apply Dead. }
  exists (se_names se1). split; [intros y; apply add_name_is|]. split.
  - destruct Ex as (r & R). destruct (R2 _ R) as (st & _ & ->). eexists. apply rr_nothing.
    eapply (pl_second H se line _ _ se1 _ (Rejected _)); [apply R1; reflexivity|reflexivity|reflexivity|exact Hl|exact R].
  - assert (V : forall r, repl_parse_line H se line r -> exists st, l_cond st = INITIAL /\ r = NoStatement (mksession st (se_names se1) (se_eval se1))).
    { intros r [r0 R0 I0|r0 t0 se0 R0 D0 I0 L0|r0 t0 se0 line0 r' R0 D0 I0 L0 R'].
      + apply R1 in R0. subst r0. cbn [do_parse] in I0. discriminate I0.
      + apply R1 in R0. subst r0. injection D0 as <- <-. rewrite Hl in L0. discriminate L0.
      + apply R1 in R0. subst r0. injection D0 as <- <-. rewrite Hl in L0. injection L0 as <-. destruct (R2 _ R') as (st & Ci & ->). exists st. auto. }
    intros r [se0 Q0|Q0|Q0|t0 se0 fuel s names Q0 Ni Ev Nm|t0 se0 fuel v s out names Q0 Ni Ev Nv Nm Pp|t0 se0 fuel v s Q0 Ni Ev Pp|t0 se0 fuel r0 Q0 Ni Ev Nf Ns|y se0 fuel out s Q0 Ev|y se0 fuel r0 Q0 Ev Nf Ns];
      destruct (V _ Q0) as (st0 & C0 & R0); try discriminate R0. injection R0 as ->. exists st0. auto.
Qed.
End Typedef2.

(** ** Declarations and whole sessions *)
Section Sessions2.
Variable E : env.
Variable H : host.
Lemma words_no_typedef ss sp : Forall word (spec_list ss) -> (forall n, specs_tree ss n = (map T_SPEC sp, n)) -> ~ In T_TYPEDEF sp -> ~ In typedef_token (specs_text ss).
Proof.
  assert (One : forall s t n, word s -> spec_tree s 0 = (t, n) -> t <> T_SPEC T_TYPEDEF -> ~ In typedef_token (spec_text s)).
  { intros [s|b| |] t n; cbn [word]; try contradiction; [intros _; destruct s|destruct b; try contradiction; intros _]; cbn; intros [= <- <-] N; intuition (discriminate || congruence). }
  intros W T. specialize (T 0). revert sp T. cut (forall n ts, specs_tree ss 0 = (ts, n) -> ~ In (T_SPEC T_TYPEDEF) ts -> ~ In typedef_token (specs_text ss)).
  { intros X sp T N. apply (X _ _ T). intros J. apply in_map_iff in J. destruct J as (w & [= ->] & J). exact (N J). }
  induction ss; cbn [spec_list specs_text specs_tree] in *; intros n ts.
  - destruct (spec_tree s 0) as [t m] eqn:T. intros [= <- <-] N. inversion W; subst. eapply One; eauto. intros ->. apply N. left. reflexivity.
  - apply Forall_app in W. destruct W as [W1 W2]. destruct (words_tree ss W1) as (sp & Tr). destruct (specs_tree ss 0) as [ts0 n0] eqn:T0. rewrite Tr in T0. injection T0 as <- <-.
    destruct (spec_tree s 0) as [t m] eqn:T. intros [= <- <-] N. inversion W2; subst. rewrite in_app_iff. intros [J|J].
    + refine (IHss W1 _ _ eq_refl _ J). intros K. apply N. apply in_or_app. left. exact K.
    + refine (One s t _ H2 T _ J). intros ->. apply N. apply in_or_app. right. left. reflexivity.
Qed.
Lemma words_fit ss : Forall word (spec_list ss) -> specs_fit ss.
Proof.
  intros Wd. induction ss; cbn [spec_list specs_fit] in *; [|apply Forall_app in Wd; destruct Wd as [W1 Wd]; split; [auto|]];
      inversion Wd as [|? ? W]; subst; destruct s; cbn in W |- *; auto; contradiction.
Qed.

Lemma declare_line se x ss sp e y rho line ct c cs :
  typed H se (specs_text ss ++ IDENTIFIER x :: p "=" :: SpecSyntax.text e ++ [p ";"]) line ->
  Forall word (spec_list ss) -> (forall n, specs_tree ss n = (map T_SPEC sp, n)) -> names_type sp (D_T ct) -> integer_type ct = true -> no_storage_class sp ->
  SpecSyntax.fits e -> int_exp e = Some y -> computed y -> ~ mentions y (string_of_list_ascii x) ->
  (forall z, mentions y z -> number E (se_eval se) (lookup (se_eval se) z) (rho z)) ->
  State.stack (se_eval se) = c :: cs -> ~ In (string_of_list_ascii x) (map fst (c_idmap c)) -> new_nodes_plain (se_eval se) ->
  (forall l, fresh (se_eval se) <= l -> zfind l (statics (se_eval se)) = None) ->
  let s := set_fresh (fun i => i + 4) (se_eval se) in
  (exists s', refuses E 16 s' /\ forall r, repl_round E H se line r <-> r = Ends (NoMemory 16 s')) \/
  exists a s1, declared E s (string_of_list_ascii x) (D_T ct) a s1 /\
    match denote rho y with
    | Some v => exists st s' w, l_cond st = INITIAL /\ only_writes E (set_ov_asn (fun o => (fresh (se_eval se) + 2, ident x) :: o) s1) a (width ct) s' /\
        clipped v w /\ wraps ct w (value_at s' ct a) /\ means s' (string_of_list_ascii x) (T_LIVE_VAR (D_T ct) a false 0) /\ storage E s' a (width ct) /\
        forall r, repl_round E H se line r <-> r = Continues (x ++ [newline]) (mksession st (se_names se) s')
    | None => exists s', only_gc E (set_ov_asn (fun o => (fresh (se_eval se) + 2, ident x) :: o) s1) s' /\
        forall r, repl_round E H se line r <-> r = Ends (Abort s')
    end.
Proof.
  intros Ty Wd Tr Nt It Ns F Hy Hc Nm Hr St Nx Np Sta s.
  set (d := LDecl (Decl ss (ID1 (Declr 0 (DName x)) (Some (IExp e))))).
  assert (Tx : line_text d = specs_text ss ++ IDENTIFIER x :: p "=" :: SpecSyntax.text e ++ [p ";"]).
  { cbn [d line_text decl_text idecls_text]. unfold idecl_text. cbn [declr_text direct_text init_text SpecSyntax.stars repeat app]. rewrite <- ?app_assoc. reflexivity. }
  assert (Ntd : ~ In typedef_token (line_text d)).
  { rewrite Tx, in_app_iff. cbn [In]. rewrite in_app_iff. intros [J|[J|[J|[J|[J|[]]]]]]; try discriminate J; [|exact (proj1 no_typedef _ J)].
    exact (words_no_typedef ss sp Wd Tr (proj1 Ns) J). }
  assert (Ni : forall q, d <> LInclude q) by discriminate.
  assert (Td : forall k, line_tree d k = (T_DECL (k + 1) (CHAIN_HEAD (map T_SPEC sp)) (CHAIN_HEAD [T_ASSIGN k (ident x) (syntax y)]), k + 1 + 1)).
  { intros k. cbn [d line_tree]. unfold decl_tree. rewrite Tr. cbn [idecls_tree]. unfold idecl_tree. cbn [declr_tree direct_tree init_tree].
    rewrite (proj2 (proj1 int_tree e y k Hy)). reflexivity. }
  rewrite <- Tx in Ty.
  assert (Fd : line_fits d) by (cbn; repeat split; auto using words_fit).
  destruct (line_answers E H se d line _ _ _ _ Ty Fd Ni ltac:(discriminate) Ntd (Td _) (Td _)) as (st & C & A).
  replace (set_fresh (fun _ => fresh (se_eval se) + 1 + 1 + 1 + 1) (se_eval se)) with s in A by (unfold s, set_fresh; f_equal; lia).
  replace (fresh (se_eval se) + 1 + 1) with (fresh (se_eval se) + 2) in A by lia.
  set (al := fresh (se_eval se) + 2) in *.
  assert (H1 : zfind (al + 1) (statics s) = None) by (apply (Sta (al + 1)); unfold al; lia).
  assert (H2 : plain s al (T_IDENTIFIER (string_of_list_ascii x))) by (left; apply (Np al); unfold al; lia).
  destruct (initialised_expr E rho y (al + 1) sp ct al (string_of_list_ascii x) s c cs H1 Nt It Ns St Nx H2 Hc Nm (fun z Hz => number_fresh E _ _ _ _ (Hr z Hz)))
    as [(s' & R & Rf)|(a & s1 & D & R)].
  - left. exists s'. split; [exact Rf|]. intros r. rewrite A. apply answers_ends; [exact R|]. intros ? ?; discriminate.
  - right. exists a, s1. split; [exact D|]. destruct (denote rho y) as [v|].
    + destruct R as (s' & w & R & W & Cl & Wr & M). exists st, s', w. split; [exact C|]. split; [exact W|]. split; [exact Cl|]. split; [exact Wr|]. split; [exact M|].
      assert (Sg : storage E s' a (width ct)).
      { eapply only_writes_storage; [exact W|]. destruct D as [[_ [[(b & B1 & B2 & B3 & B4) _] _]] _]. exists b. split; [exact B1|]. split; [exact B2|]. split; [|exact B4].
        assert (width ct <= 16) by (destruct ct; cbn; lia). lia. }
      split; [exact Sg|]. intros r. rewrite A. replace (x ++ [newline]) with (chars (string_of_list_ascii x) ++ [newline]) by (unfold chars; rewrite list_ascii_of_string_of_list_ascii; reflexivity).
      apply (answers_value E H (mksession st (se_names se) s) _ (ident x)); [exact R|discriminate|reflexivity].
    + destruct R as (s' & R & W). exists s'. split; [exact W|]. intros r. rewrite A. apply answers_ends; [exact R|]. intros ? ?; discriminate.
Qed.

Lemma rounds_two se l1 l2 o1 se1 o2 se2 : (forall r, repl_round E H se l1 r <-> r = Continues o1 se1) -> (forall r, repl_round E H se1 l2 r <-> r = Continues o2 se2) ->
  forall outs se', repl_rounds E H se [l1; l2] outs se' <-> outs = o1 ++ o2 /\ se' = se2.
Proof.
  intros R1 R2 outs se'. split.
  - intros R. inversion R as [|se0 l0 oa sea ls ob seb Ra Rb]; subst. apply R1 in Ra. injection Ra as -> ->.
    inversion Rb as [|se0 l0 oa sea ls oc sec Rc Rd]; subst. apply R2 in Rc. injection Rc as -> ->. inversion Rd; subst. rewrite app_nil_r. auto.
  - intros [-> ->]. econstructor; [apply R1; reflexivity|]. rewrite <- (app_nil_r o2). econstructor; [apply R2; reflexivity|constructor].
Qed.

Lemma only_writes_includes s a n s' : only_writes E s a n s' -> includes s' = includes s.
Proof. intros (_ & G & _). exact (sg_includes _ _ G). Qed.

Lemma assign_show se x e y rho line line2 c a arr n v : typed H se (IDENTIFIER x :: p "=" :: SpecSyntax.text e ++ [p ";"]) line -> typed H se [IDENTIFIER x; p ";"] line2 ->
  SpecSyntax.fits (Assign Plain (Id x) e) -> int_exp e = Some y -> computed y ->
  (forall z, mentions y z -> number E (se_eval se) (lookup (se_eval se) z) (rho z)) ->
  means (se_eval se) (string_of_list_ascii x) (T_LIVE_VAR (D_T c) a arr n) -> integer_type c = true -> storage E (se_eval se) a (width c) ->
  new_nodes_plain (se_eval se) -> denote rho y = Some v ->
  exists st s' w u out out2, l_cond st = INITIAL /\ only_writes E (set_fresh (fun i => i + 2) (se_eval se)) a (width c) s' /\
    clipped v w /\ wraps c w u /\ decimal v out /\ decimal u out2 /\
    forall outs se', repl_rounds E H se [line; line2] outs se' <-> outs = (out ++ [newline]) ++ out2 ++ [newline] /\ se' = mksession st (se_names se) s'.
Proof.
  intros Ty Ty2 F Hy Hc Hr M Hi Hs Np Dn.
  destruct (assign_line E H se x e y rho line c a arr n Ty F Hy Hc Hr M Hi Hs Np) as (st & s' & C & A). rewrite Dn in A.
  destruct A as (out & w & D & W & Cl & Wr & M' & S' & R).
  assert (Ty2' : typed H (mksession st (se_names se) s') [IDENTIFIER x; p ";"] line2).
  { apply (typed_same H se); auto. cbn [se_eval]. rewrite (only_writes_includes _ _ _ _ W). reflexivity. }
  destruct (variable_line E H _ x line2 c a arr n Ty2' M' Hi S') as (st2 & out2 & C2 & D2 & R2). cbn [se_eval se_names] in *.
  exists st2, s', w, (value_at s' c a), out, out2. do 6 (split; [assumption|]). apply (rounds_two se line line2 _ _ _ _ R R2).
Qed.

Lemma declare_show se x ss sp e y rho line line2 ct c cs v :
  typed H se (specs_text ss ++ IDENTIFIER x :: p "=" :: SpecSyntax.text e ++ [p ";"]) line -> typed H se [IDENTIFIER x; p ";"] line2 ->
  Forall word (spec_list ss) -> (forall n, specs_tree ss n = (map T_SPEC sp, n)) -> names_type sp (D_T ct) -> integer_type ct = true -> no_storage_class sp ->
  SpecSyntax.fits e -> int_exp e = Some y -> computed y -> ~ mentions y (string_of_list_ascii x) ->
  (forall z, mentions y z -> number E (se_eval se) (lookup (se_eval se) z) (rho z)) ->
  State.stack (se_eval se) = c :: cs -> ~ In (string_of_list_ascii x) (map fst (c_idmap c)) -> new_nodes_plain (se_eval se) ->
  (forall l, fresh (se_eval se) <= l -> zfind l (statics (se_eval se)) = None) -> denote rho y = Some v ->
  (exists s', refuses E 16 s' /\ forall r, repl_round E H se line r <-> r = Ends (NoMemory 16 s')) \/
  exists st s' w u out, l_cond st = INITIAL /\ clipped v w /\ wraps ct w u /\ decimal u out /\
    forall outs se', repl_rounds E H se [line; line2] outs se' <-> outs = (x ++ [newline]) ++ out ++ [newline] /\ se' = mksession st (se_names se) s'.
Proof.
  intros Ty Ty2 Wd Tr Nt It Ns F Hy Hc Nm Hr St Nx Np Sta Dn.
  destruct (declare_line se x ss sp e y rho line ct c cs Ty Wd Tr Nt It Ns F Hy Hc Nm Hr St Nx Np Sta) as [L|(a & s1 & D & A)]; [left; exact L|right].
  rewrite Dn in A. destruct A as (st & s' & w & C & W & Cl & Wr & M & Sg & R).
  assert (Ty2' : typed H (mksession st (se_names se) s') [IDENTIFIER x; p ";"] line2).
  { apply (typed_same H se); auto. cbn [se_eval]. rewrite (only_writes_includes _ _ _ _ W). destruct D as [[_ [_ (_ & Q & _)]] _]. exact Q. }
  destruct (variable_line E H _ x line2 ct a false 0 Ty2' M It Sg) as (st2 & out2 & C2 & D2 & R2). cbn [se_eval se_names] in *.
  exists st2, s', w, (value_at s' ct a), out2. do 4 (split; [assumption|]). apply (rounds_two se line line2 _ _ _ _ R R2).
Qed.
End Sessions2.

(** ** The start condition of the scanner lasts *)
Section Stuck.
Variable E : env.
Variable H : host.
Lemma stuck_read tn s : forall st, l_cond st = compound_start_cond -> Forall (fun c => ~ In c letters /\ c <> "{"%char) s ->
  yylex REPL_T tn (S (List.length s)) st s = EndOfInput st.
Proof.
  induction s as [|c s IH]; intros st C F; [reflexivity|]. inversion F as [|? ? [N1 N2] F']; subst. specialize (IH st C F').
  change (List.length (c :: s)) with (S (List.length s)).
  destruct (in_dec ascii_dec c white) as [W|W]; [rewrite lex_white by (try assumption; rewrite C; discriminate); exact IH|].
  transitivity (yylex REPL_T tn (S (List.length s)) st s); [|exact IH].
  remember (S (List.length s)) as k eqn:Hk. clear IH Hk. cbn [yylex]. rewrite C, choose_alive.
  replace (filter _ _) with (@nil rule); [reflexivity|].
  assert (L : is_L c = false) by (destruct (is_L c) eqn:Q; [destruct N1; apply letter_iff; exact Q|reflexivity]).
  assert (B : existsb (Ascii.eqb c) white = false).
  { destruct (existsb (Ascii.eqb c) white) eqn:Q; [|reflexivity]. apply existsb_exists in Q. destruct Q as (d & I & Q). apply Ascii.eqb_eq in Q. subst. contradiction. }
  assert (Nb : Ascii.eqb c "{" = false) by (apply Ascii.eqb_neq; exact N2).
  clear - L B Nb. revert L B Nb. destruct c as [[] [] [] [] [] [] [] []]; vm_compute; congruence.
Qed.
Lemma stuck_parse se line : l_cond (se_lex se) = compound_start_cond -> Forall (fun c => ~ In c letters /\ c <> "{"%char) line ->
  forall r, replparse se line r <-> r = Rejected se.
Proof.
  intros C F r. pose proof (stuck_read (is_type se) line (se_lex se) C F) as Y.
  assert (S1 : scans (is_type se) (se_lex se) line [] (Finished (se_lex se))) by (exists (se_lex se), line; split; [constructor|exact Y]).
  assert (R1 : forall l st rest, Session.reads (is_type se) (se_lex se) line l st rest -> l = [] /\ st = se_lex se).
  { intros l st rest R. inversion R; subst; [auto|]. match goal with X : yylex _ _ _ _ _ = Token _ _ _ |- _ => rewrite Y in X; discriminate X end. }
  assert (Se : mksession (se_lex se) (se_names se) (se_eval se) = se) by (destruct se; reflexivity). split.
  - intros [l' st' ts' n' S' Nt' P'|l' st' k sp d n' S' It P'|l' st' rest R' Nt' B|l' st' S' Nt' B|l' S'|l' st' rest R' [It _] _ B].
    + destruct (scans_det _ _ _ _ _ _ _ S1 S') as [-> _]. destruct (no_line _ _ _ P').
    + destruct (scans_det _ _ _ _ _ _ _ S1 S') as [-> _]. destruct It.
    + destruct (R1 _ _ _ R') as [_ ->]. rewrite Se. reflexivity.
    + destruct (scans_det _ _ _ _ _ _ _ S1 S') as [_ [= ->]]. rewrite Se. reflexivity.
    + destruct (scans_det _ _ _ _ _ _ _ S1 S') as [_ X]. discriminate X.
    + destruct (R1 _ _ _ R') as [-> _]. destruct It.
  - intros ->. rewrite <- Se at 2. eapply rp_reject_end; [exact S1|intros [[] _]|exact no_line].
Qed.
Lemma round_rejected se line se' : (forall r, replparse se line r <-> r = Rejected se') -> forall r, repl_round E H se line r <-> r = Continues [] se'.
Proof.
  intros P r.
  assert (V : forall q, repl_parse_line H se line q <-> q = NoStatement se').
  { intros q. split.
    - intros [r0 R _|r0 t se1 R D _ _|r0 t se1 line' r' R D _ _ _]; apply P in R; subst r0; [reflexivity|discriminate D|discriminate D].
    - intros ->. apply (pl_first H se line (Rejected se')); [apply P; reflexivity|exact I]. }
  split.
  - intros [se0 Q0|Q0|Q0|t0 se0 fuel s names Q0 Ni Ev Nm|t0 se0 fuel v s out names Q0 Ni Ev Nv Nm Pp|t0 se0 fuel v s Q0 Ni Ev Pp|t0 se0 fuel r0 Q0 Ni Ev Nf Ns|y se0 fuel out s Q0 Ev|y se0 fuel r0 Q0 Ev Nf Ns];
      apply V in Q0; try discriminate Q0. injection Q0 as ->. reflexivity.
  - intros ->. apply rr_nothing. apply V. reflexivity.
Qed.
Lemma stuck_line se line : l_cond (se_lex se) = compound_start_cond -> Forall (fun c => ~ In c letters /\ c <> "{"%char) line ->
  forall r, repl_round E H se line r <-> r = Continues [] se.
Proof. intros C F. apply round_rejected. apply stuck_parse; assumption. Qed.

Lemma tag_error l t : t = KW "STRUCT" \/ t = KW "UNION" -> syntax_error REPL_T (l ++ [t]).
Proof. intros Ht n u m P. pose proof (accepted_end REPL_T _ _ _ _ l t P eq_refl) as B. destruct Ht; subst t; vm_compute in B; discriminate B. Qed.
Lemma tag_line se line l t : l_cond (se_lex se) = INITIAL -> writes (is_type se) false (l ++ [t]) line -> t = KW "STRUCT" \/ t = KW "UNION" ->
  ~ In typedef_token l -> (exists l' n u m, parses REPL_T n (l ++ t :: l') u m) ->
  exists st, l_cond st = compound_start_cond /\ forall r, repl_round E H se line r <-> r = Continues [] (mksession st (se_names se) (se_eval se)).
Proof.
  intros C W Ht Nt (l' & n & u & m & P). pose proof (tag_error l t Ht) as Er.
  assert (Nt' : ~ In typedef_token (l ++ [t])) by (rewrite in_app_iff; cbn [In]; intros [J|[J|[]]]; [exact (Nt J)|destruct Ht; subst t; discriminate J]).
  destruct (writes_scans _ _ _ _ W (se_lex se) C) as (st1 & S1 & C1). rewrite ends_tag_snoc in C1.
  exists st1. split; [destruct Ht; subst t; exact C1|]. apply round_rejected. intros r. split.
  - intros [k st' ts' n' S' Nt2 P'|k st' q sp d n' S' It P'|k st' rest R' Nt2 B|k st' S' Nt2 B|k S'|k st' rest R' [It _] _ B].
    + destruct (scans_det _ _ _ _ _ _ _ S1 S') as [-> _]. destruct (Er _ _ _ P').
    + destruct (scans_det _ _ _ _ _ _ _ S1 S') as [-> _]. contradiction.
    + destruct (reads_det _ _ _ _ _ S1 _ _ _ R') as (l1 & El & _). replace (l ++ t :: l') with (k ++ l1 ++ l') in P; [destruct (B _ _ _ _ P)|].
      rewrite app_assoc, <- El, <- app_assoc. reflexivity.
    + destruct (scans_det _ _ _ _ _ _ _ S1 S') as [_ [= ->]]. reflexivity.
    + destruct (scans_det _ _ _ _ _ _ _ S1 S') as [_ X]. discriminate X.
    + destruct (reads_det _ _ _ _ _ S1 _ _ _ R') as (l1 & El & _). destruct Nt'. rewrite El. apply in_or_app. auto.
  - intros ->. eapply rp_reject_end; [exact S1|intros [J _]; exact (Nt' J)|exact Er].
Qed.
End Stuck.
