(** C63 - C68: lines typed at the REPL (src/repl.c:372-431, 457-485, src/pretty-printer.c).  [E] are the external functions and memory, [H] the
    preprocessor and the printing of floating-point numbers. *)
From Coq Require Import ZArith List String Ascii Bool Lia.
From Verif Require Import CInt Tree SpecResolver SpecTypes State Eval Lexer Grammar Typename Repl Session SpecLexer SpecScan ScanFacts
  SpecParser SpecSyntax SpecNames NameFacts VarFacts SpecRun RunFacts SpecExpr SpecVars SpecCalls StepsFacts EvalInv SpecTypesFacts ParserFacts SyntaxFacts SyntaxProps LexerFacts3 TestEnv TestRun TestScan SpecSession SessionFacts SessionFacts2.
Import ListNotations.
Local Open Scope string_scope.
Local Open Scope Z_scope.
Local Open Scope list_scope.

(** C63.  A line with integer expressions prints the value of the last in decimal and a line feed; nothing changes but for the garbage
    collector.  If a division by zero is met the process aborts. *)
Theorem C63_expression : forall E H se es x rho line, typed H se (texts es ++ [p ";"]) line -> fits_all es -> int_exps es = Some x -> computed x ->
  (forall y, mentions x y -> number E (se_eval se) (lookup (se_eval se) y) (rho y)) ->
  exists st s', l_cond st = INITIAL /\ only_gc E (se_eval se) s' /\
    match denote rho x with
    | Some v => exists out, decimal v out /\
        forall r, repl_round E H se line r <-> r = Continues (out ++ [newline]) (mksession st (se_names se) s')
    | None => forall r, repl_round E H se line r <-> r = Ends (Abort s')
    end.
Proof. exact int_line. Qed.
Print Assumptions C63_expression.

(** The name of an integer variable prints its value; nothing changes. *)
Theorem C63_variable : forall E H se x line c a arr n, typed H se [IDENTIFIER x; p ";"] line ->
  means (se_eval se) (string_of_list_ascii x) (T_LIVE_VAR (D_T c) a arr n) -> integer_type c = true -> storage E (se_eval se) a (width c) ->
  exists st out, l_cond st = INITIAL /\ decimal (value_at (se_eval se) c a) out /\
    forall r, repl_round E H se line r <-> r = Continues (out ++ [newline]) (mksession st (se_names se) (se_eval se)).
Proof. exact variable_line. Qed.
Print Assumptions C63_variable.

(** In general, for a line without typedef: what the second parse makes of the line is evaluated once, in the state before the line but for the
    identities of the nodes made by both parses; its value is printed.  (Lines with [?] are in C73.)  [line_tree] is in SpecSyntax.v. *)
Theorem C63_any_line : forall E H se x line t1 n1 t n2, typed H se (line_text x) line -> line_fits x -> (forall s, x <> LInclude s) -> (forall y, x <> LInspect y) ->
  ~ In typedef_token (line_text x) -> line_tree x (fresh (se_eval se)) = (t1, n1) -> line_tree x n1 = (t, n2) ->
  exists st, l_cond st = INITIAL /\ forall r, repl_round E H se line r <->
    answers E H (mksession st (se_names se) (set_fresh (fun _ => n2) (se_eval se))) t r.
Proof. exact line_answers. Qed.
Print Assumptions C63_any_line.

(** The examples: a preprocessor that changes nothing, the state after [int x = -70000;]. *)
Definition host0 : host := mkhost (fun t => t ++ [newline]) (fun _ _ => []) (fun _ _ => []) (fun _ _ => (txt "<REPL>", 1)).
Definition here : state := after [init_int (-1) "x" (num (-70000))].
Definition se0 : session := session_start here.
Lemma typed0 l line : laid (is_type se0) false l = true -> text_of l = line -> line <> [] -> existsb (Ascii.eqb newline) line = false ->
  typed host0 se0 (map (fun q => fst (fst q)) l) line.
Proof.
  intros L <- Ne Nn. pose proof (laid_ok (is_type se0) l false L) as W. split; [reflexivity|]. split; [exact W|]. exists (text_of l). split; [|exact W].
  split; [exact Ne|]. split.
  - intros J. rewrite (proj2 (existsb_exists _ _) (ex_intro _ _ (conj J (Ascii.eqb_refl newline)))) in Nn. discriminate Nn.
  - exists []. split; [left; reflexivity|]. assert (I : includes here = []) by (vm_compute; reflexivity).
    cbn [se0 session_start se_eval]. rewrite I. reflexivity.
Qed.
(** [ (x+70001)*3, x<0 ? -x%7 : 1;] *)
Definition es0 : cexps :=
  More (One (Infix (Arith MUL) (Paren (One (Infix (Arith ADD) (Id (txt "x")) (Num 70001)))) (Num 3)))
       (SpecSyntax.Cond (Infix (Compare LT) (Id (txt "x")) (Num 0)) (One (Infix (Arith MOD) (Num 70000) (Num 7))) (Num 1)).
Example C63_nontrivial : exists line x rho,
  line = txt "(x+70001)*3, x<0 ? 70000%7 : 1;" /\ typed host0 se0 (texts es0 ++ [p ";"]) line /\ fits_all es0 /\ int_exps es0 = Some x /\ computed x /\
  (forall y, mentions x y -> number env0 (se_eval se0) (lookup (se_eval se0) y) (rho y)) /\ denote rho x = Some 0.
Proof.
  set (l := [pu "("; nm "x"; pu "+"; nu 70001; pu ")"; pu "*"; nu 3; sp (pu ","); nm "x"; pu "<"; sp (nu 0); sp (pu "?"); nu 70000; pu "%"; sp (nu 7);
             sp (pu ":"); nu 1; pu ";"]).
  exists (text_of l). eexists. exists (fun _ => -70000).
  split; [vm_compute; reflexivity|].
  split; [apply (typed0 l); [vm_compute; reflexivity|reflexivity|discriminate|vm_compute; reflexivity]|].
  split; [cbn; repeat split; lia|]. split; [reflexivity|]. split; [cbn; repeat split; discriminate|].
  split; [|vm_compute; reflexivity]. intros y Hy. assert (y = "x") as -> by (cbn in Hy; tauto). apply numberb_ok. vm_compute. reflexivity.
Qed.

(** C64.  A line that is not in the grammar is reported; nothing is printed to the output, evaluated or declared.  If it does not contain the
    words struct or union the next line is read as usual. *)
Theorem C64_rejected : forall E H se line l, l_cond (se_lex se) = INITIAL -> writes (is_type se) false l line -> ~ In typedef_token l -> syntax_error REPL_T l ->
  (exists r, repl_round E H se line r) /\
  forall r, repl_round E H se line r -> exists st, r = Continues [] (mksession st (se_names se) (se_eval se)) /\
    ((forall t, In t l -> t <> KW "STRUCT" /\ t <> KW "UNION") -> l_cond st = INITIAL).
Proof. exact rejected_line. Qed.
Print Assumptions C64_rejected.

(** Not in the grammar are: lines with one of these words; definitions of functions; the empty line. *)
Theorem C64_no_statements : forall w k, In k ["IF"; "ELSE"; "WHILE"; "FOR"; "DO"; "RETURN"; "BREAK"; "CONTINUE"; "SWITCH"; "CASE"; "DEFAULT"; "GOTO"] ->
  In (KW k) w -> syntax_error REPL_T w.
Proof. intros w k Hk. apply no_statements. cbn in Hk |- *. tauto. Qed.
Print Assumptions C64_no_statements.
Theorem C64_no_functions : forall u v, syntax_error REPL_T (u ++ PUNCT ")" :: PUNCT "{" :: v).
Proof. exact no_functions. Qed.
Print Assumptions C64_no_functions.
Theorem C64_no_line : syntax_error REPL_T [].
Proof. exact no_line. Qed.
Print Assumptions C64_no_line.

(** Two or more statements on a line: the process ends, before any of them is evaluated. *)
Theorem C64_several : forall E H se line xs ts n, l_cond (se_lex se) = INITIAL -> writes (is_type se) false (seq_text line_text xs) line ->
  (2 <= List.length xs)%nat -> Forall line_fits xs -> ~ In typedef_token (seq_text line_text xs) -> seq_tree line_tree xs (fresh (se_eval se)) = (ts, n) ->
  forall r, repl_round E H se line r <-> r = Quits.
Proof. exact several_statements. Qed.
Print Assumptions C64_several.

Example C64_nontrivial : exists l, writes (is_type se0) false l (txt "if (x<0) x = 1;") /\ ~ In typedef_token l /\ syntax_error REPL_T l /\
  (forall t, In t l -> t <> KW "STRUCT" /\ t <> KW "UNION").
Proof.
  set (i := [sp (kw "if" "IF"); pu "("; nm "x"; pu "<"; nu 0; sp (pu ")"); sp (nm "x"); sp (pu "="); nu 1; pu ";"]).
  exists (map (fun q => fst (fst q)) i). split; [change (txt "if (x<0) x = 1;") with (text_of i); apply laid_ok; vm_compute; reflexivity|].
  split; [cbn; intuition discriminate|]. split; [apply (C64_no_statements _ "IF"); cbn; tauto|]. cbn. intros t Ht. intuition (subst; discriminate).
Qed.
Example C64_nontrivial_several : exists xs, writes (is_type se0) false (seq_text line_text xs) (txt "x; 1+x;") /\ (2 <= List.length xs)%nat /\ Forall line_fits xs /\
  ~ In typedef_token (seq_text line_text xs).
Proof.
  set (i := [nm "x"; sp (pu ";"); nu 1; pu "+"; nm "x"; pu ";"]).
  exists [LExp (One (Id (txt "x"))); LExp (One (Infix (Arith ADD) (Num 1) (Id (txt "x"))))].
  split; [change (txt "x; 1+x;") with (text_of i); apply (laid_ok (is_type se0) i false); vm_compute; reflexivity|].
  split; [cbn; lia|]. split; [repeat constructor|]. cbn. intuition discriminate.
Qed.

(** C65.  A line that ends in the word struct or union, and could be continued, is rejected, and leaves the scanner waiting for a tag. *)
Theorem C65_waits : forall E H se line l t, l_cond (se_lex se) = INITIAL -> writes (is_type se) false (l ++ [t]) line -> t = KW "STRUCT" \/ t = KW "UNION" ->
  ~ In typedef_token l -> (exists l' n u m, parses REPL_T n (l ++ t :: l') u m) ->
  exists st, l_cond st = compound_start_cond /\ forall r, repl_round E H se line r <-> r = Continues [] (mksession st (se_names se) (se_eval se)).
Proof. exact tag_line. Qed.
Print Assumptions C65_waits.

(** Then lines without letters, underscores and opening braces have no effect, however many. *)
Theorem C65_ignored : forall E H se lines, l_cond (se_lex se) = compound_start_cond ->
  (forall line c, In line lines -> In c line -> ~ In c letters /\ c <> "{"%char) ->
  forall outs se', repl_rounds E H se lines outs se' <-> outs = [] /\ se' = se.
Proof.
  intros E H se lines C. induction lines as [|line lines IH]; intros F outs se'.
  - split; [intros R; inversion R; auto|intros [-> ->]; constructor].
  - assert (L : forall r, repl_round E H se line r <-> r = Continues [] se).
    { apply stuck_line; [exact C|]. apply Forall_forall. intros c Hc. apply (F line c); [left; reflexivity|exact Hc]. }
    assert (F' : forall line c, In line lines -> In c line -> ~ In c letters /\ c <> "{"%char) by (intros; eapply F; [right|]; eassumption). split.
    + intros R. inversion R as [|? ? out se1 ? outs' ? R1 R2]; subst. apply L in R1. injection R1 as -> ->. apply (IH F') in R2. exact R2.
    + intros [-> ->]. apply (rs_cons E H se line [] se lines [] se); [apply L; reflexivity|apply IH; auto].
Qed.
Print Assumptions C65_ignored.

Lemma struct_continues : exists l' n u m, parses REPL_T n ([] ++ KW "STRUCT" :: l') u m.
Proof. exists [IDENTIFIER (txt "s"); PUNCT ";"]. exists 0. do 2 eexists. exact (proj1 (one_line (LDecl (Specs (S1 (SBase (BTag sstruct (txt "s")))))) 0 _ _ I eq_refl)). Qed.
Lemma struct_text : writes (is_type se0) false ([] ++ [KW "STRUCT"]) (txt "struct").
Proof. apply (laid_ok (is_type se0) [kw "struct" "STRUCT"] false). vm_compute. reflexivity. Qed.
Lemma one_typed : typed host0 se0 (texts (One (Num 1)) ++ [p ";"]) (txt "1;").
Proof. apply (typed0 [nu 1; pu ";"]); [vm_compute; reflexivity|vm_compute; reflexivity|discriminate|vm_compute; reflexivity]. Qed.

(** So it is false that a rejected line has no influence on what later lines print. *)
Theorem C65_rejected_forgotten_refuted : exists E H se line1 line2 se1 out se2,
  reachable E (se_eval se) /\ (forall r, repl_round E H se line1 r <-> r = Continues [] se1) /\ se_names se1 = se_names se /\ se_eval se1 = se_eval se /\
  decimal 1 out /\ (forall r, repl_round E H se line2 r <-> r = Continues (out ++ [newline]) se2) /\
  (forall r, repl_round E H se1 line2 r <-> r = Continues [] se1).
Proof.
  destruct (C65_waits env0 host0 se0 (txt "struct") [] (KW "STRUCT") eq_refl struct_text (or_introl eq_refl) (fun x => x) struct_continues)
    as (st & C & R1).
  assert (Hn : forall y, mentions (Lit 1) y -> number env0 (se_eval se0) (lookup (se_eval se0) y) 0) by (intros y []).
  destruct (C63_expression env0 host0 se0 (One (Num 1)) (Lit 1) (fun _ => 0) (txt "1;") one_typed I eq_refl I Hn) as (st2 & s2 & _ & _ & out & D & R2).
  assert (R0 : reachable env0 (se_eval se0)) by apply reachable_after. generalize dependent se0. intros se R1 Hn R2 R0.
  exists env0, host0, se, (txt "struct"), (txt "1;"). do 3 eexists. split; [exact R0|]. split; [exact R1|]. split; [reflexivity|]. split; [reflexivity|].
  split; [exact D|]. split; [exact R2|]. apply stuck_line; [exact C|]. repeat constructor; try discriminate; vm_compute; intuition discriminate.
Qed.
Print Assumptions C65_rejected_forgotten_refuted.

(** C66.  A typedef at the REPL.  The first parse makes [x] the name of a type, so that the second parse takes it for a type: what is evaluated
    declares nothing. *)
Theorem C66_typedef : forall E H se x ss line ts1 n1 ts n2,
  typed_typedef H se x (specs_text ss ++ [IDENTIFIER x; p ";"]) (specs_text ss ++ [TYPE_NAME x; p ";"]) line ->
  specs_fit ss -> In (SStore STypedef) (spec_list ss) ->
  specs_tree ss (fresh (se_eval se)) = (ts1, n1) -> specs_tree ss (n1 + 1) = (ts, n2) ->
  exists st names, l_cond st = INITIAL /\ (forall y, is_typename y names = (is_typename y (se_names se) || String.eqb y (string_of_list_ascii x))%bool) /\
    forall r, repl_round E H se line r <->
      answers E H (mksession st names (set_fresh (fun _ => n2 + 1) (se_eval se))) (T_DECL n2 (CHAIN_HEAD (ts ++ [ident x])) NULL) r.
Proof. exact typedef_line. Qed.
Print Assumptions C66_typedef.

(** For [typedef int T;] and the like with a new name the process ends with an error. *)
Theorem C66_words : forall E H se x ss line,
  typed_typedef H se x (specs_text ss ++ [IDENTIFIER x; p ";"]) (specs_text ss ++ [TYPE_NAME x; p ";"]) line ->
  In (SStore STypedef) (spec_list ss) -> Forall word (spec_list ss) -> lookup (se_eval se) (string_of_list_ascii x) = NULL ->
  (forall l, fresh (se_eval se) <= l -> zfind l (statics (se_eval se)) = None) ->
  exists s', only_gc E (set_fresh (fun i => i + 2) (se_eval se)) s' /\ forall r, repl_round E H se line r <-> r = Ends (Die s').
Proof. exact words_typedef. Qed.
Print Assumptions C66_words.

(** For [typedef int *T;] and the like nothing is evaluated or declared, but the scanner knows [T] as the name of a type from then on. *)
Theorem C66_pointer : forall E H se x ss k line ts n1,
  typed_typedef H se x (specs_text ss ++ SpecSyntax.stars (S k) ++ [IDENTIFIER x; p ";"]) (specs_text ss ++ SpecSyntax.stars (S k) ++ [TYPE_NAME x; p ";"]) line ->
  In (SStore STypedef) (spec_list ss) -> Forall word (spec_list ss) -> specs_tree ss (fresh (se_eval se)) = (ts, n1) ->
  exists names, (forall y, is_typename y names = (is_typename y (se_names se) || String.eqb y (string_of_list_ascii x))%bool) /\
    (exists r, repl_round E H se line r) /\
    forall r, repl_round E H se line r -> exists st, l_cond st = INITIAL /\ r = Continues [] (mksession st names (set_fresh (fun _ => n1 + 1) (se_eval se))).
Proof. exact pointer_typedef. Qed.
Print Assumptions C66_pointer.

Definition typedef_int : cspecs := SMore (S1 (SStore STypedef)) (SBase BInt).
Lemma typedef_typed i j line : laid (is_type se0) false i = true -> text_of i = line ->
  laid (fun y => is_type se0 y || String.eqb (string_of_list_ascii y) "T")%bool false j = true -> text_of j = line -> line <> [] -> existsb (Ascii.eqb newline) line = false ->
  typed_typedef host0 se0 (txt "T") (map (fun q => fst (fst q)) i) (map (fun q => fst (fst q)) j) line.
Proof.
  intros L1 T1 L2 T2 Ne Nn. split; [reflexivity|]. split; [rewrite <- T1; apply laid_ok; exact L1|]. exists line. split; [|rewrite <- T2; apply laid_ok; exact L2].
  split; [exact Ne|]. split; [intros J; rewrite (proj2 (existsb_exists _ _) (ex_intro _ _ (conj J (Ascii.eqb_refl newline)))) in Nn; discriminate Nn|].
  exists []. split; [left; reflexivity|]. assert (I : includes here = []) by (vm_compute; reflexivity). cbn [se0 session_start se_eval]. rewrite I. reflexivity.
Qed.
Example C66_nontrivial :
  typed_typedef host0 se0 (txt "T") (specs_text typedef_int ++ [IDENTIFIER (txt "T"); p ";"]) (specs_text typedef_int ++ [TYPE_NAME (txt "T"); p ";"]) (txt "typedef int T;") /\
  typed_typedef host0 se0 (txt "T") (specs_text typedef_int ++ SpecSyntax.stars 1 ++ [IDENTIFIER (txt "T"); p ";"])
    (specs_text typedef_int ++ SpecSyntax.stars 1 ++ [TYPE_NAME (txt "T"); p ";"]) (txt "typedef int *T;") /\
  In (SStore STypedef) (spec_list typedef_int) /\ Forall word (spec_list typedef_int) /\ lookup (se_eval se0) "T" = NULL /\
  (forall l, fresh (se_eval se0) <= l -> zfind l (statics (se_eval se0)) = None).
Proof.
  split; [apply (typedef_typed [sp (kw "typedef" "TYPEDEF"); sp (kw "int" "INT"); nm "T"; pu ";"] [sp (kw "typedef" "TYPEDEF"); sp (kw "int" "INT"); ty "T"; pu ";"]);
    try discriminate; vm_compute; reflexivity|].
  split; [apply (typedef_typed [sp (kw "typedef" "TYPEDEF"); sp (kw "int" "INT"); pu "*"; nm "T"; pu ";"] [sp (kw "typedef" "TYPEDEF"); sp (kw "int" "INT"); pu "*"; ty "T"; pu ";"]);
    try discriminate; vm_compute; reflexivity|].
  split; [cbn; tauto|]. split; [repeat constructor|]. split; [vm_compute; reflexivity|].
  intros l _. assert (S : statics (se_eval se0) = []) by (vm_compute; reflexivity). rewrite S. reflexivity.
Qed.


(** C67.  Whatever lines are typed: as long as the REPL goes on, the evaluator is in a state it reaches by evaluating programs, to which the
    properties of these states (C10, C11, C14, ...) apply. *)
Theorem C67_reachable : forall E H se lines outs se', reachable E (se_eval se) -> repl_rounds E H se lines outs se' -> reachable E (se_eval se').
Proof. intros E H se lines outs se' R S. eapply reachable_steps; [exact R|]. eapply rounds_steps. exact S. Qed.
Print Assumptions C67_reachable.

Example C67_nontrivial : exists outs se', reachable env0 (se_eval se0) /\ repl_rounds env0 host0 se0 [txt "x;"; txt "1;"; txt "if"] outs se' /\ (4 <= List.length outs)%nat.
Proof.
  assert (Ty : typed host0 se0 [IDENTIFIER (txt "x"); p ";"] (txt "x;")).
  { apply (typed0 [nm "x"; pu ";"]); [vm_compute; reflexivity|vm_compute; reflexivity|discriminate|vm_compute; reflexivity]. }
  assert (M : means (se_eval se0) "x" (T_LIVE_VAR (D_T D_T_INT) 4112 false 0)) by (apply means_lookup; [discriminate|vm_compute; reflexivity]).
  assert (Sg : storage env0 (se_eval se0) 4112 (width D_T_INT)) by (apply storageb_ok; vm_compute; reflexivity).
  assert (W : writes (is_type se0) false [KW "IF"] (txt "if")) by (apply (laid_ok (is_type se0) [kw "if" "IF"] false); vm_compute; reflexivity).
  assert (Er : syntax_error REPL_T [KW "IF"]) by (apply (C64_no_statements _ "IF"); cbn; tauto).
  pose proof one_typed as Ty1. assert (R0 : reachable env0 (se_eval se0)) by apply reachable_after. generalize dependent se0. intros se Ty M Sg W Ty1 R0.
  destruct (C63_variable env0 host0 se _ _ _ _ _ _ Ty M eq_refl Sg) as (st & out & C & (ds & (Nd & _) & _ & D) & R).
  pose proof (proj2 (R _) eq_refl) as R1. set (se1 := mksession st (se_names se) (se_eval se)) in *.
  assert (Ty' : typed host0 se1 (texts (One (Num 1)) ++ [p ";"]) (txt "1;")) by (apply (typed_same host0 se); auto).
  assert (Hn : forall y, mentions (Lit 1) y -> number env0 (se_eval se1) (lookup (se_eval se1) y) 0) by (intros y []).
  destruct (C63_expression env0 host0 se1 (One (Num 1)) (Lit 1) (fun _ => 0) _ Ty' I eq_refl I Hn) as (st2 & s2 & C2 & _ & out2 & (ds2 & (Nd2 & _) & _ & D2) & R2).
  pose proof (proj2 (R2 _) eq_refl) as R2'. set (se2 := mksession st2 (se_names se1) s2) in *.
  destruct (C64_rejected env0 host0 se2 (txt "if") [KW "IF"] C2 W (fun J => match J with or_introl e => ltac:(discriminate e) | or_intror e => e end) Er) as ((r3 & R3) & U).
  destruct (U _ R3) as (st3 & -> & _).
  do 2 eexists. split; [exact R0|]. split; [econstructor; [exact R1|]; econstructor; [exact R2'|]; econstructor; [exact R3|constructor]|].
  rewrite !app_length. subst out out2. cbn. destruct ds; [destruct Nd; reflexivity|]. destruct ds2; [destruct Nd2; reflexivity|]. 
  destruct (value_at (se_eval se) D_T_INT 4112 <? 0); cbn; lia.
Qed.

(** C68.  [x = e;] prints the value of [e], before it is converted to the type of [x]; only the storage of [x] is written. *)
Theorem C68_assign : forall E H se x e y rho line c a arr n, typed H se (IDENTIFIER x :: p "=" :: SpecSyntax.text e ++ [p ";"]) line ->
  SpecSyntax.fits (Assign Plain (Id x) e) -> int_exp e = Some y -> computed y ->
  (forall z, mentions y z -> number E (se_eval se) (lookup (se_eval se) z) (rho z)) ->
  means (se_eval se) (string_of_list_ascii x) (T_LIVE_VAR (D_T c) a arr n) -> integer_type c = true -> storage E (se_eval se) a (width c) ->
  new_nodes_plain (se_eval se) ->
  exists st s', l_cond st = INITIAL /\
    match denote rho y with
    | Some v => exists out w, decimal v out /\ only_writes E (set_fresh (fun i => i + 2) (se_eval se)) a (width c) s' /\
        clipped v w /\ wraps c w (value_at s' c a) /\ means s' (string_of_list_ascii x) (T_LIVE_VAR (D_T c) a arr n) /\ storage E s' a (width c) /\
        forall r, repl_round E H se line r <-> r = Continues (out ++ [newline]) (mksession st (se_names se) s')
    | None => only_gc E (set_fresh (fun i => i + 2) (se_eval se)) s' /\ forall r, repl_round E H se line r <-> r = Ends (Abort s')
    end.
Proof. exact assign_line. Qed.
Print Assumptions C68_assign.

(** Then [x;] prints the value converted to the type of [x]. *)
Theorem C68_assign_show : forall E H se x e y rho line line2 c a arr n v,
  typed H se (IDENTIFIER x :: p "=" :: SpecSyntax.text e ++ [p ";"]) line -> typed H se [IDENTIFIER x; p ";"] line2 ->
  SpecSyntax.fits (Assign Plain (Id x) e) -> int_exp e = Some y -> computed y ->
  (forall z, mentions y z -> number E (se_eval se) (lookup (se_eval se) z) (rho z)) ->
  means (se_eval se) (string_of_list_ascii x) (T_LIVE_VAR (D_T c) a arr n) -> integer_type c = true -> storage E (se_eval se) a (width c) ->
  new_nodes_plain (se_eval se) -> denote rho y = Some v ->
  exists st s' w u out out2, l_cond st = INITIAL /\ only_writes E (set_fresh (fun i => i + 2) (se_eval se)) a (width c) s' /\
    clipped v w /\ wraps c w u /\ decimal v out /\ decimal u out2 /\
    forall outs se', repl_rounds E H se [line; line2] outs se' <-> outs = (out ++ [newline]) ++ out2 ++ [newline] /\ se' = mksession st (se_names se) s'.
Proof. exact assign_show. Qed.
Print Assumptions C68_assign_show.

(** [specs x = e;] in a scope that does not declare [x] declares [x] with the value of [e] converted to its type, and prints the name [x]. *)
Theorem C68_declare : forall E H se x ss sp e y rho line ct c cs,
  typed H se (specs_text ss ++ IDENTIFIER x :: p "=" :: SpecSyntax.text e ++ [p ";"]) line ->
  Forall word (spec_list ss) -> (forall n, specs_tree ss n = (map T_SPEC sp, n)) -> names_type sp (D_T ct) -> integer_type ct = true -> no_storage_class sp ->
  SpecSyntax.fits e -> int_exp e = Some y -> computed y -> ~ mentions y (string_of_list_ascii x) ->
  (forall z, mentions y z -> number E (se_eval se) (lookup (se_eval se) z) (rho z)) ->
  State.stack (se_eval se) = c :: cs -> ~ In (string_of_list_ascii x) (map fst (c_idmap c)) -> new_nodes_plain (se_eval se) ->
  (forall l, fresh (se_eval se) <= l -> zfind l (statics (se_eval se)) = None) ->
  let s := set_fresh (fun i => i + 4) (se_eval se) in
  (exists s', refuses E 16 s' /\ forall r, repl_round E H se line r <-> r = Ends (NoMemory 16 s')) \/
  exists a s1, declared E s (string_of_list_ascii x) (D_T ct) a s1 /\
    match denote rho y with
    | Some v => exists st s' w, l_cond st = INITIAL /\ only_writes E (set_ov_asn (fun o => (fresh (se_eval se) + 2, ident x) :: o) s1) a (width ct) s' /\
        clipped v w /\ wraps ct w (value_at s' ct a) /\ means s' (string_of_list_ascii x) (T_LIVE_VAR (D_T ct) a false 0) /\ storage E s' a (width ct) /\
        forall r, repl_round E H se line r <-> r = Continues (x ++ [newline]) (mksession st (se_names se) s')
    | None => exists s', only_gc E (set_ov_asn (fun o => (fresh (se_eval se) + 2, ident x) :: o) s1) s' /\
        forall r, repl_round E H se line r <-> r = Ends (Abort s')
    end.
Proof. exact declare_line. Qed.
Print Assumptions C68_declare.

(** Then [x;] prints this value. *)
Theorem C68_declare_show : forall E H se x ss sp e y rho line line2 ct c cs v,
  typed H se (specs_text ss ++ IDENTIFIER x :: p "=" :: SpecSyntax.text e ++ [p ";"]) line -> typed H se [IDENTIFIER x; p ";"] line2 ->
  Forall word (spec_list ss) -> (forall n, specs_tree ss n = (map T_SPEC sp, n)) -> names_type sp (D_T ct) -> integer_type ct = true -> no_storage_class sp ->
  SpecSyntax.fits e -> int_exp e = Some y -> computed y -> ~ mentions y (string_of_list_ascii x) ->
  (forall z, mentions y z -> number E (se_eval se) (lookup (se_eval se) z) (rho z)) ->
  State.stack (se_eval se) = c :: cs -> ~ In (string_of_list_ascii x) (map fst (c_idmap c)) -> new_nodes_plain (se_eval se) ->
  (forall l, fresh (se_eval se) <= l -> zfind l (statics (se_eval se)) = None) -> denote rho y = Some v ->
  (exists s', refuses E 16 s' /\ forall r, repl_round E H se line r <-> r = Ends (NoMemory 16 s')) \/
  exists st s' w u out, l_cond st = INITIAL /\ clipped v w /\ wraps ct w u /\ decimal u out /\
    forall outs se', repl_rounds E H se [line; line2] outs se' <-> outs = (x ++ [newline]) ++ out ++ [newline] /\ se' = mksession st (se_names se) s'.
Proof. exact declare_show. Qed.
Print Assumptions C68_declare_show.

(** [unsigned char y = x+70300;] with x = -70000: y is 44. *)
Definition uchar : cspecs := SMore (S1 (SBase BUnsigned)) (SBase BChar).
Definition sum : cexp := Infix (Arith ADD) (Id (txt "x")) (Num 70300).
Example C68_nontrivial : exists c cs y,
  typed host0 se0 (specs_text uchar ++ IDENTIFIER (txt "y") :: p "=" :: SpecSyntax.text sum ++ [p ";"]) (txt "unsigned char y = x+70300;") /\
  typed host0 se0 [IDENTIFIER (txt "y"); p ";"] (txt "y;") /\
  Forall word (spec_list uchar) /\ (forall n, specs_tree uchar n = (map T_SPEC [T_UNSIGNED_TS; T_CHAR_TS], n)) /\
  names_type [T_UNSIGNED_TS; T_CHAR_TS] (D_T D_T_UCHAR) /\ no_storage_class [T_UNSIGNED_TS; T_CHAR_TS] /\
  SpecSyntax.fits sum /\ int_exp sum = Some y /\ computed y /\ ~ mentions y "y" /\
  (forall z, mentions y z -> number env0 (se_eval se0) (lookup (se_eval se0) z) (-70000)) /\
  State.stack (se_eval se0) = c :: cs /\ ~ In "y" (map fst (c_idmap c)) /\ new_nodes_plain (se_eval se0) /\
  (forall l, fresh (se_eval se0) <= l -> zfind l (statics (se_eval se0)) = None) /\ denote (fun _ => -70000) y = Some 300 /\ wraps D_T_UCHAR 300 44.
Proof.
  assert (Hl : List.length (State.stack here) = 2%nat) by (vm_compute; reflexivity).
  assert (Hn : match State.stack here with c :: _ => existsb (String.eqb "y") (map fst (c_idmap c)) | _ => true end = false) by (vm_compute; reflexivity).
  cbn [se0 session_start se_eval]. destruct (State.stack here) as [|c cs] eqn:Hs; [discriminate Hl|]. exists c, cs. eexists.
  split; [apply (typed0 [sp (kw "unsigned" "UNSIGNED"); sp (kw "char" "CHAR"); sp (nm "y"); sp (pu "="); nm "x"; pu "+"; nu 70300; pu ";"]);
    [vm_compute; reflexivity|vm_compute; reflexivity|discriminate|vm_compute; reflexivity]|].
  split; [apply (typed0 [nm "y"; pu ";"]); [vm_compute; reflexivity|vm_compute; reflexivity|discriminate|vm_compute; reflexivity]|].
  split; [repeat constructor|]. split; [reflexivity|]. split; [apply SpecTypesFacts.resolve_type; reflexivity|].
  split; [repeat split; cbn; intuition discriminate|]. split; [cbn; repeat split; lia|]. split; [reflexivity|]. split; [cbn; repeat split; discriminate|].
  split; [cbn; intuition discriminate|].
  split; [intros z Hz; assert (z = "x") as -> by (cbn in Hz; tauto); apply numberb_ok; vm_compute; reflexivity|].
  split; [reflexivity|]. split; [intros Hy; rewrite (proj2 (existsb_exists _ _) (ex_intro _ _ (conj Hy (String.eqb_refl "y")))) in Hn; discriminate Hn|].
  assert (Ov : ov_asn here = [(-1, id "x")]) by (vm_compute; reflexivity). assert (Fr : (0 <=? fresh here) = true) by (vm_compute; reflexivity). assert (St : statics here = []) by (vm_compute; reflexivity).
  split; [intros l Hf; rewrite Ov; apply Z.leb_le in Fr; cbn [zfind find fst]; destruct (Z.eqb_spec l (-1)); [lia|reflexivity]|]. split; [intros l _; rewrite St; reflexivity|]. split; [reflexivity|].
  split; [exists (-1); reflexivity|cbn; lia].
Qed.
