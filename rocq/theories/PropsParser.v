(** C55 - C61: what the two parsers make of the tokens (src/parser.m4).  [T] is the parser (REPL or script), [w] the tokens, [n] the
    next identity for nodes that have one.  [parses T n w t m] says that the tree is [t]; the programs, their tokens and
    their trees are those of SpecSyntax.v. *)
From Coq Require Import ZArith List String Ascii Bool Lia.
From Verif Require Import CInt Tree Lexer Grammar ParserFacts SpecParser SpecSyntax SyntaxFacts AdjacentFacts SyntaxProps.
Import ListNotations.
Local Open Scope string_scope.
Local Open Scope Z_scope.
Local Open Scope list_scope.

Definition nm (s : string) : name := list_ascii_of_string s.
Notation var s := (Id (nm s)).

(** ** C55: the tokens have at most one tree *)

Theorem C55_one_tree : forall T n w t t' m m', parses T n w t m -> parses T n w t' m' -> t = t' /\ m = m'.
Proof. exact one_tree. Qed.
Print Assumptions C55_one_tree.

(** [a * b;] at the prompt: the tree exists, and there is no second one. *)
Example C55_example : exists t, parses REPL_T 0 [IDENTIFIER (nm "a"); PUNCT "*"; IDENTIFIER (nm "b"); PUNCT ";"] t 0.
Proof. eexists. apply (lines_parse [LExp (One (Infix (Arith MUL) (var "a") (var "b")))]); [discriminate| |reflexivity]. repeat constructor. Qed.

(** ** C56: expressions group as in C *)

(** Every expression that has the parentheses it needs by the precedences of C is parsed to its tree, and to nothing else. *)
Theorem C56_expressions : forall n es ts m, fits_all es -> etrees es n = (ts, m) ->
  parses_only REPL_T n (texts es ++ [p ";"]) (CHAIN_HEAD [T_EXPR_LIST (CHAIN_HEAD ts)]) m /\
  parses_only CSCRIPT_T n (texts es ++ [p ";"]) (CHAIN_HEAD [T_EXPR_LIST (CHAIN_HEAD ts)]) m.
Proof. exact expressions_parse. Qed.
Print Assumptions C56_expressions.

(** Two binary operators: the first one groups first, unless the second one binds tighter. *)
Theorem C56_left : forall n o o' a b c ta tb tc n1 n2 m, (12 <= level a)%nat -> (12 <= level b)%nat -> (12 <= level c)%nat -> fits a -> fits b -> fits c ->
  etree a n = (ta, n1) -> etree b n1 = (tb, n2) -> etree c n2 = (tc, m) -> (prec o' <= prec o)%nat ->
  parses_only REPL_T n (text a ++ infix_text o :: text b ++ infix_text o' :: text c ++ [p ";"])
    (CHAIN_HEAD [T_EXPR_LIST (CHAIN_HEAD [infix_tree o' (infix_tree o ta tb) tc])]) m.
Proof. exact groups_left. Qed.
Print Assumptions C56_left.
Theorem C56_right : forall n o o' a b c ta tb tc n1 n2 m, (12 <= level a)%nat -> (12 <= level b)%nat -> (12 <= level c)%nat -> fits a -> fits b -> fits c ->
  etree a n = (ta, n1) -> etree b n1 = (tb, n2) -> etree c n2 = (tc, m) -> (prec o < prec o')%nat ->
  parses_only REPL_T n (text a ++ infix_text o :: text b ++ infix_text o' :: text c ++ [p ";"])
    (CHAIN_HEAD [T_EXPR_LIST (CHAIN_HEAD [infix_tree o ta (infix_tree o' tb tc)])]) m.
Proof. exact groups_right. Qed.
Print Assumptions C56_right.
(** Assignments group to the right. *)
Theorem C56_assign : forall n o o' a b c ta tb tc n1 n2 m, (13 <= level a)%nat -> (13 <= level b)%nat -> fits a -> fits b -> fits c ->
  etree a n = (ta, n1) -> etree b n1 = (tb, n2) -> etree c n2 = (tc, m) ->
  parses_only REPL_T n (text a ++ assign_text o :: text b ++ assign_text o' :: text c ++ [p ";"])
    (CHAIN_HEAD [T_EXPR_LIST (CHAIN_HEAD [T_ASSIGN (m + 1) ta (assigned o ta (T_ASSIGN m tb (assigned o' tb tc)))])]) (m + 2).
Proof. exact groups_assign. Qed.
Print Assumptions C56_assign.

(** [a + b * c - d == e && f;] and [x = y += 2;]. *)
Definition c56_expression : cexps :=
  One (Infix LAnd (Infix (Compare EQ) (Infix (Arith SUB) (Infix (Arith ADD) (var "a") (Infix (Arith MUL) (var "b") (var "c"))) (var "d")) (var "e")) (var "f")).
Example C56_example : fits_all c56_expression /\
  texts c56_expression = [IDENTIFIER (nm "a"); p "+"; IDENTIFIER (nm "b"); p "*"; IDENTIFIER (nm "c"); p "-"; IDENTIFIER (nm "d");
    KW "EQUATE"; IDENTIFIER (nm "e"); KW "BOOL_OP_AND"; IDENTIFIER (nm "f")] /\
  etrees c56_expression 7 = ([T_L_AND (T_CMP EQ (T_BINOP SUB (T_BINOP ADD (T_IDENTIFIER "a") (T_BINOP MUL (T_IDENTIFIER "b") (T_IDENTIFIER "c"))) (T_IDENTIFIER "d"))
    (T_IDENTIFIER "e")) (T_IDENTIFIER "f")], 7).
Proof. split; [simpl; repeat split; lia|split; reflexivity]. Qed.
Example C56_assign_example : parses_only REPL_T 3 [IDENTIFIER (nm "x"); p "="; IDENTIFIER (nm "y"); KW "ADD_ASSIGN"; INTEGER 2; p ";"]
  (CHAIN_HEAD [T_EXPR_LIST (CHAIN_HEAD [T_ASSIGN 4 (T_IDENTIFIER "x") (T_ASSIGN 3 (T_IDENTIFIER "y") (T_BINOP ADD (T_IDENTIFIER "y") (T_INTEGER 2)))])]) 5.
Proof. exact (C56_assign 3 Plain AddA (var "x") (var "y") (Num 2) _ _ _ _ _ _ ltac:(simpl; lia) ltac:(simpl; lia) I I I eq_refl eq_refl eq_refl). Qed.

(** ** C57: signs are never unary, and literals cannot follow each other *)

(** In everything the parsers accept, a minus or plus sign stands between two operands: [-x] is a syntax error. *)
Theorem C57_sign : forall T n w t m u c v, parses T n w t m -> w = u ++ PUNCT c :: v -> c = "-"%char \/ c = "+"%char ->
  (exists u' a, u = u' ++ [a] /\ In (class a) operand_ends) /\ (exists b v', v = b :: v' /\ In (class b) operand_starts).
Proof. exact sign_between. Qed.
Print Assumptions C57_sign.
(** A literal directly after a literal is a syntax error (also two strings); and in scripts a literal directly after a name: this is
    what [x-1] is scanned to (C54). *)
Theorem C57_literals : forall T u a b v, In (class a) literals -> In (class b) literals -> syntax_error T (u ++ a :: b :: v).
Proof. exact literal_literal. Qed.
Print Assumptions C57_literals.
Theorem C57_name : forall u x b v, In (class b) literals -> syntax_error CSCRIPT_T (u ++ IDENTIFIER x :: b :: v).
Proof. exact name_literal. Qed.
Print Assumptions C57_name.

(** [y = -x;] is rejected, [y = 0 - x;] is accepted; so is [x-1;] rejected at the prompt, though [?x] may precede a literal there. *)
Example C57_example :
  syntax_error REPL_T [IDENTIFIER (nm "y"); p "="; p "-"; IDENTIFIER (nm "x"); p ";"] /\
  syntax_error REPL_T [IDENTIFIER (nm "x"); INTEGER (-1); p ";"] /\
  (exists t m, parses REPL_T 0 [p "?"; IDENTIFIER (nm "x"); INTEGER (-1); p ";"] t m) /\
  (exists t m, parses CSCRIPT_T 0 ([IDENTIFIER (nm "y"); p "="; INTEGER 0] ++ PUNCT "-" :: [IDENTIFIER (nm "x"); p ";"]) t m).
Proof.
  split; [|split; [|split]].
  - intros n t m H. destruct (C57_sign REPL_T n _ t m [IDENTIFIER (nm "y"); p "="] "-" [IDENTIFIER (nm "x"); p ";"] H eq_refl) as [[u' [a [E I]]] _]; [auto|].
    change [IDENTIFIER (nm "y"); p "="] with ([IDENTIFIER (nm "y")] ++ [p "="]) in E. apply app_inj_tail in E as [_ <-].
    simpl in I. repeat (destruct I as [I|I]; [discriminate I|]). exact I.
  - apply (stops_error REPL_T 30). vm_compute. reflexivity.
  - eexists. eexists. apply (lines_parse [LInspect (nm "x"); LExp (One (Num (-1)))]); [discriminate|repeat constructor|reflexivity].
  - eexists. eexists. apply (script_parses [XStmt (SExp (One (Assign Plain (var "y") (Infix (Arith SUB) (Num 0) (var "x")))))]); [discriminate| |reflexivity].
    constructor; [|constructor]. simpl. repeat split; lia.
Qed.

(** ** C58: scripts are parsed to the trees of their statements and declarations *)

Theorem C58_scripts : forall l n ts m, l <> [] -> Forall ext_fits l -> seq_tree ext_tree l n = (ts, m) ->
  parses_only CSCRIPT_T n (seq_text ext_text l) (CHAIN_HEAD ts) m.
Proof. intros l n ts m H1 H2 H3. exact (only _ _ _ _ _ (script_parses l n ts m H1 H2 H3)). Qed.
Print Assumptions C58_scripts.
Theorem C58_lines : forall l n ts m, l <> [] -> Forall line_fits l -> seq_tree line_tree l n = (ts, m) ->
  parses_only REPL_T n (seq_text line_text l) (CHAIN_HEAD ts) m.
Proof. intros l n ts m H1 H2 H3. exact (only _ _ _ _ _ (lines_parse l n ts m H1 H2 H3)). Qed.
Print Assumptions C58_lines.

(** An else belongs to the nearest if. *)
Theorem C58_else : forall n es es' s s' c c' t t' n1 n2 n3 m, fits_all es -> fits_all es' -> stmt_fits s -> open s = false -> stmt_fits s' ->
  elist es n = (c, n1) -> elist es' n1 = (c', n2) -> stmt_tree s n2 = (t, n3) -> stmt_tree s' n3 = (t', m) ->
  parses_only CSCRIPT_T n
    ([KW "IF"; p "("] ++ texts es ++ [p ")"; KW "IF"; p "("] ++ texts es' ++ [p ")"] ++ stmt_text s ++ [KW "ELSE"] ++ stmt_text s')
    (CHAIN_HEAD [T_IF c (T_IF c' t t') NULL]) m.
Proof. exact nearest_if. Qed.
Print Assumptions C58_else.
(** And it directly follows the end of a statement. *)
Theorem C58_else_after : forall T n w t m u v, parses T n w t m -> w = u ++ KW "ELSE" :: v ->
  exists u' c, u = u' ++ [PUNCT c] /\ (c = ";"%char \/ c = "}"%char).
Proof. exact else_after. Qed.
Print Assumptions C58_else_after.

(** [int f(int x) { if (x) if (x - 1) return 1; else return 2; while (x) { x = x - 1; break; } } f(3);] *)
Definition int_specs : cspecs := S1 (SBase BInt).
Definition c58_script : list cext :=
  [XFn int_specs (Declr 0 (DFn (DName (nm "f")) (P1 (Param int_specs (Declr 0 (DName (nm "x"))))) false))
     (Some (ItMore (It1 (IStmt (SIf (One (var "x")) (SIfElse (One (Infix (Arith SUB) (var "x") (Num 1))) (SReturn (Some (One (Num 1)))) (SReturn (Some (One (Num 2))))))))
        (IStmt (SWhile (One (var "x")) (SBlock (ItMore (It1 (IStmt (SExp (One (Assign Plain (var "x") (Infix (Arith SUB) (var "x") (Num 1))))))) (IStmt SBreak)))))));
   XStmt (SExp (One (Call (var "f") (One (Num 3)))))].
Example C58_example : Forall ext_fits c58_script /\
  seq_tree ext_tree c58_script 0 =
    ([T_DECL 4 (CHAIN_HEAD [T_SPEC T_INT_TS])
       (CHAIN_HEAD [T_FN (T_IDENTIFIER "f") (CHAIN_HEAD [T_DECL 0 (CHAIN_HEAD [T_SPEC T_INT_TS]) (T_IDENTIFIER "x")]) NULL
         (CHAIN_HEAD [T_IF (T_EXPR_LIST (CHAIN_HEAD [T_IDENTIFIER "x"]))
                        (T_IF (T_EXPR_LIST (CHAIN_HEAD [T_BINOP SUB (T_IDENTIFIER "x") (T_INTEGER 1)]))
                           (T_RETURN 1 (T_EXPR_LIST (CHAIN_HEAD [T_INTEGER 1]))) (T_RETURN 2 (T_EXPR_LIST (CHAIN_HEAD [T_INTEGER 2])))) NULL;
                      T_LOOP_WHILE (T_EXPR_LIST (CHAIN_HEAD [T_IDENTIFIER "x"]))
                        (CHAIN_HEAD [T_EXPR_LIST (CHAIN_HEAD [T_ASSIGN 3 (T_IDENTIFIER "x") (T_BINOP SUB (T_IDENTIFIER "x") (T_INTEGER 1))]); T_BREAK])])]);
      T_EXPR_LIST (CHAIN_HEAD [T_FN_CALL (T_IDENTIFIER "f") (CHAIN_HEAD [T_INTEGER 3])])], 5).
Proof. split; [repeat constructor; simpl; repeat split; lia|reflexivity]. Qed.

(** ** C59: parts of C the parsers reject *)

(** The keywords of switch, do, goto and continue statements are syntax errors wherever they are. *)
Theorem C59_keywords : forall T w k, In k unused_keywords -> In (KW k) w -> syntax_error T w.
Proof. exact keyword_unused. Qed.
Print Assumptions C59_keywords.
(** An equals sign directly follows an operand: compound assignments that the scanner does not know are syntax errors. *)
Theorem C59_equals : forall T n w t m u v, parses T n w t m -> w = u ++ PUNCT "=" :: v -> exists u' a, u = u' ++ [a] /\ In (class a) operand_ends.
Proof. exact equals_after. Qed.
Print Assumptions C59_equals.
(** In C the operand of [!] and [~] can be a cast; here what follows the parenthesis starts an operand and is not a type. *)
Theorem C59_cast : forall T n w t m u c b v, parses T n w t m -> w = u ++ PUNCT c :: PUNCT "(" :: b :: v -> c = "!"%char \/ c = "~"%char ->
  In (class b) operand_starts.
Proof. exact prefix_paren. Qed.
Print Assumptions C59_cast.

(** [do { } while (x);], [x *= 2;], [y = !(int)x;] and a cast to a pointer under a star are rejected; [y = !(x);] and [y = (int)!x;] accepted. *)
Example C59_example :
  syntax_error CSCRIPT_T [KW "DO"; p "{"; p "}"; KW "WHILE"; p "("; IDENTIFIER (nm "x"); p ")"; p ";"] /\
  (forall T, syntax_error T [IDENTIFIER (nm "x"); p "*"; p "="; INTEGER 2; p ";"]) /\
  (forall T, syntax_error T [IDENTIFIER (nm "y"); p "="; p "!"; p "("; KW "INT"; p ")"; IDENTIFIER (nm "x"); p ";"]) /\
  (forall T, syntax_error T [IDENTIFIER (nm "y"); p "="; p "*"; p "("; KW "INT"; p "*"; p ")"; IDENTIFIER (nm "x"); p ";"]) /\
  (exists t m, parses CSCRIPT_T 0 [IDENTIFIER (nm "y"); p "="; p "!"; p "("; IDENTIFIER (nm "x"); p ")"; p ";"] t m) /\
  (exists t m, parses CSCRIPT_T 0 [IDENTIFIER (nm "y"); p "="; p "("; KW "INT"; p ")"; p "!"; IDENTIFIER (nm "x"); p ";"] t m).
Proof.
  split; [|split; [|split; [|split; [|split]]]].
  - apply (C59_keywords _ _ "DO"); simpl; auto.
  - intros T. destruct T; apply (stops_error _ 30); vm_compute; reflexivity.
  - intros T. destruct T; apply (stops_error _ 40); vm_compute; reflexivity.
  - intros T. destruct T; apply (stops_error _ 40); vm_compute; reflexivity.
  - eexists. eexists. apply (script_parses [XStmt (SExp (One (Assign Plain (var "y") (Pre LNot (Paren (One (var "x")))))))]); [discriminate| |reflexivity].
    constructor; [|constructor]. simpl. repeat split; lia.
  - eexists. eexists. apply (script_parses [XStmt (SExp (One (Assign Plain (var "y") (Cast (mktype BInt [] 0) (Pre LNot (var "x"))))))]); [discriminate| |reflexivity].
    constructor; [|constructor]. simpl. repeat split; lia.
Qed.

(** ** C60: the body of a function that returns a pointer is lost *)

(** The definition of a function whose declarator starts with a star is parsed to the same tree as the declaration without the body. *)
Theorem C60_body_lost : forall n ss k d b, ext_fits (XFn ss (Declr (S k) d) b) ->
  exists sp dl i j m m',
    parses_only CSCRIPT_T n (ext_text (XFn ss (Declr (S k) d) b)) (CHAIN_HEAD [T_DECL i sp dl]) m /\
    parses_only CSCRIPT_T n (ext_text (XDecl (Decl ss (ID1 (Declr (S k) d) None)))) (CHAIN_HEAD [T_DECL j sp dl]) m'.
Proof. exact body_lost. Qed.
Print Assumptions C60_body_lost.
(** Without a star the body is in the tree. *)
Theorem C60_body_kept : forall n ss d ps v b sp dd pl bb n1 n2 n3 m,
  ext_fits (XFn ss (Declr 0 (DFn d ps v)) (Some b)) ->
  specs_tree ss n = (sp, n1) -> direct_tree d n1 = (dd, n2) -> params_tree ps n2 = (pl, n3) -> items_tree b n3 = (bb, m) ->
  parses_only CSCRIPT_T n (ext_text (XFn ss (Declr 0 (DFn d ps v)) (Some b)))
    (CHAIN_HEAD [T_DECL m (CHAIN_HEAD sp) (CHAIN_HEAD [T_FN dd (CHAIN_HEAD (pl ++ if v then [T_VARIADIC] else [])) NULL (CHAIN_HEAD bb)])]) (m + 1).
Proof. exact body_kept. Qed.
Print Assumptions C60_body_kept.

(** [int *f(int x) { return x; }] *)
Definition c60_function : cext :=
  XFn int_specs (Declr 1 (DFn (DName (nm "f")) (P1 (Param int_specs (Declr 0 (DName (nm "x"))))) false)) (Some (It1 (IStmt (SReturn (Some (One (var "x"))))))).
Example C60_example : ext_fits c60_function /\
  ext_text c60_function = [KW "INT"; p "*"; IDENTIFIER (nm "f"); p "("; KW "INT"; IDENTIFIER (nm "x"); p ")"; p "{"; KW "RETURN"; IDENTIFIER (nm "x"); p ";"; p "}"] /\
  ext_tree c60_function 0 = (T_DECL 2 (CHAIN_HEAD [T_SPEC T_INT_TS])
    (CHAIN_HEAD [T_POINTER (T_FN (T_IDENTIFIER "f") (CHAIN_HEAD [T_DECL 0 (CHAIN_HEAD [T_SPEC T_INT_TS]) (T_IDENTIFIER "x")]) NULL NULL)]), 3).
Proof. split; [simpl; repeat split; lia|split; reflexivity]. Qed.

(** A function in the old style, with declarations of its parameters between the declarator and the body: whatever is declared there is not
    in the tree.  Two such functions that differ in nothing else, and in whose declarations as many nodes have an identity, have the same tree. *)
Theorem C60_parameters_lost : forall n ss d q qs q' qs' b, ext_fits (XOldFn ss d q qs b) -> ext_fits (XOldFn ss d q' qs' b) ->
  (forall k, after_decls (q :: qs) k = after_decls (q' :: qs') k) ->
  exists t m, parses_only CSCRIPT_T n (ext_text (XOldFn ss d q qs b)) t m /\ parses_only CSCRIPT_T n (ext_text (XOldFn ss d q' qs' b)) t m.
Proof. exact parameters_lost. Qed.
Print Assumptions C60_parameters_lost.

(** [int f(x) int x; { return x; }] and [int f(x) char *y; { return x; }] *)
Definition c60_old (q : cdecl) : cext :=
  XOldFn int_specs (Declr 0 (DFnNames (DName (nm "f")) (nm "x") [])) q [] (Some (It1 (IStmt (SReturn (Some (One (var "x"))))))).
Example C60_old_example :
  let q := Decl int_specs (ID1 (Declr 0 (DName (nm "x"))) None) in let q' := Decl (S1 (SBase BChar)) (ID1 (Declr 1 (DName (nm "y"))) None) in
  ext_fits (c60_old q) /\ ext_fits (c60_old q') /\ (forall k, after_decls [q] k = after_decls [q'] k) /\
  ext_text (c60_old q') = [KW "INT"; IDENTIFIER (nm "f"); p "("; IDENTIFIER (nm "x"); p ")"; KW "CHAR"; p "*"; IDENTIFIER (nm "y"); p ";"; p "{"; KW "RETURN"; IDENTIFIER (nm "x"); p ";"; p "}"] /\
  ext_tree (c60_old q') 0 = (T_DECL 2 (CHAIN_HEAD [T_SPEC T_INT_TS])
    (CHAIN_HEAD [T_FN (T_IDENTIFIER "f") (CHAIN_HEAD [T_IDENTIFIER "x"]) NULL (CHAIN_HEAD [T_RETURN 1 (T_EXPR_LIST (CHAIN_HEAD [T_IDENTIFIER "x"]))])]), 3).
Proof. cbv zeta. split; [|split; [|split; [|split]]]; try reflexivity; repeat constructor. Qed.

(** ** C61: declarators *)

(** A declaration with one declarator: the stars are applied outside of what follows the name, so that [int *x[3]] is an array under a
    pointer node; parentheses only group. *)
Theorem C61_declarator : forall n ss k d sp t n1 m, specs_fit ss -> direct_fits d -> specs_tree ss n = (sp, n1) -> direct_tree d n1 = (t, m) ->
  parses_only REPL_T n (specs_text ss ++ stars k ++ direct_text d ++ [p ";"])
    (CHAIN_HEAD [T_DECL m (CHAIN_HEAD sp) (CHAIN_HEAD [pointers k t])]) (m + 1).
Proof. exact declarator_parses. Qed.
Print Assumptions C61_declarator.
(** Parentheses around a declarator leave no trace. *)
Theorem C61_parentheses : forall n ss d t m, specs_fit ss -> declr_fits d ->
  (parses REPL_T n (specs_text ss ++ p "(" :: declr_text d ++ [p ")"; p ";"]) t m <-> parses REPL_T n (specs_text ss ++ declr_text d ++ [p ";"]) t m).
Proof. exact parenthesised. Qed.
Print Assumptions C61_parentheses.

(** [int *x[3], ( *f)(), y = 4;] and [struct s { int a, *b; } v;] *)
Example C61_example :
  let d1 := Decl int_specs (IDMore (IDMore (ID1 (Declr 1 (DArray (DName (nm "x")) (Num 3))) None) (Declr 0 (DFn0 (DParen (Declr 1 (DName (nm "f")))))) None) (Declr 0 (DName (nm "y"))) (Some (IExp (Num 4)))) in
  let d2 := Decl (S1 (SDef sstruct (Some (nm "s")) (M1 (Member int_specs (DMore (D1 (Field (Declr 0 (DName (nm "a"))))) (Field (Declr 1 (DName (nm "b"))))))))) (ID1 (Declr 0 (DName (nm "v"))) None) in
  parses_only REPL_T 0 (seq_text line_text [LDecl d1; LDecl d2])
    (CHAIN_HEAD [T_DECL 1 (CHAIN_HEAD [T_SPEC T_INT_TS])
       (CHAIN_HEAD [T_POINTER (T_ARRAY (T_IDENTIFIER "x") (T_INTEGER 3)); T_FN (T_POINTER (T_IDENTIFIER "f")) NULL NULL NULL; T_ASSIGN 0 (T_IDENTIFIER "y") (T_INTEGER 4)]);
     T_DECL 4 (CHAIN_HEAD [T_DECL_COMPOUND 3 sstruct (T_IDENTIFIER "s")
       (CHAIN_HEAD [T_DECL 2 (CHAIN_HEAD [T_SPEC T_INT_TS]) (CHAIN_HEAD [T_IDENTIFIER "a"; T_POINTER (T_IDENTIFIER "b")])])]) (CHAIN_HEAD [T_IDENTIFIER "v"])]) 5.
Proof. cbv zeta. apply C58_lines; [discriminate| |reflexivity]. repeat constructor. Qed.

(** A bit-field: its width and its declarator are the two parts of its node. *)
Theorem C61_bit_field : forall n x y ss d e sp t w n1 n2 m, plain_specs ss -> specs_fit ss -> declr_fits d -> (1 <= level e)%nat -> fits e ->
  specs_tree ss n = (sp, n1) -> declr_tree d n1 = (t, n2) -> etree e n2 = (w, m) ->
  parses_only REPL_T n ([KW "STRUCT"; IDENTIFIER x; p "{"] ++ specs_text ss ++ declr_text d ++ p ":" :: text e ++ [p ";"; p "}"; IDENTIFIER y; p ";"])
    (CHAIN_HEAD [T_DECL (m + 2)
       (CHAIN_HEAD [T_DECL_COMPOUND (m + 1) sstruct (ident x) (CHAIN_HEAD [T_DECL m (CHAIN_HEAD sp) (CHAIN_HEAD [T_BITFIELD w t])])])
       (CHAIN_HEAD [ident y])]) (m + 3).
Proof. exact bit_field_parses. Qed.
Print Assumptions C61_bit_field.

(** An element of a list initialiser that says which member it is for: the node is an assignment to what was designated. *)
Theorem C61_designated : forall n ss x y i sp t n1 m, specs_fit ss -> init_fits i -> specs_tree ss n = (sp, n1) -> init_tree i (n1 + 1) = (t, m) ->
  parses_only REPL_T n (specs_text ss ++ [IDENTIFIER x; p "="; p "{"; p "."; IDENTIFIER y; p "="] ++ init_text i ++ [p "}"; p ";"])
    (CHAIN_HEAD [T_DECL (m + 1) (CHAIN_HEAD sp)
       (CHAIN_HEAD [T_ASSIGN m (ident x) (CHAIN_HEAD [T_ASSIGN n1 (CHAIN_HEAD [T_COMP_ACCESS NULL (ident y)]) t])])]) (m + 2).
Proof. exact designated_parses. Qed.
Print Assumptions C61_designated.

(** [struct s { int a : 3, : 2; char c[3]; } v = { .a = 1, .c[2] = 7, };], [int f(int ( * )(int), char *[], ...);] and [enum e { A, B, } k;] *)
Example C61_more_example :
  let member x := Declr 0 (DName (nm x)) in
  let d1 := Decl (S1 (SDef sstruct (Some (nm "s"))
                    (MMore (M1 (Member int_specs (DMore (D1 (Bits (member "a") (Num 3))) (Gap (Num 2)))))
                       (Member (S1 (SBase BChar)) (D1 (Field (Declr 0 (DArray (DName (nm "c")) (Num 3)))))))))
                 (ID1 (member "v") (Some (IList (IMore (I1 (Some (De1 (OfMember (nm "a")))) (IExp (Num 1)))
                    (Some (DeMore (De1 (OfMember (nm "c"))) (OfIndex (Num 2)))) (IExp (Num 7))) true))) in
  let d2 := Decl int_specs (ID1 (Declr 0 (DFn (DName (nm "f"))
                 (PMore (P1 (ParamDirect int_specs 0 (AFnOf (AStars 0) (P1 (ParamAbs int_specs 0)) false))) (ParamDirect (S1 (SBase BChar)) 1 AUnsized)) true)) None) in
  let d3 := Decl (S1 (SEnum (Some (nm "e")) (EMore (E1 (nm "A") None) (nm "B") None) true)) (ID1 (member "k") None) in
  seq_text line_text [LDecl d1] =
    [KW "STRUCT"; IDENTIFIER (nm "s"); p "{"; KW "INT"; IDENTIFIER (nm "a"); p ":"; INTEGER 3; p ","; p ":"; INTEGER 2; p ";";
     KW "CHAR"; IDENTIFIER (nm "c"); p "["; INTEGER 3; p "]"; p ";"; p "}"; IDENTIFIER (nm "v"); p "="; p "{"; p "."; IDENTIFIER (nm "a"); p "="; INTEGER 1; p ",";
     p "."; IDENTIFIER (nm "c"); p "["; INTEGER 2; p "]"; p "="; INTEGER 7; p ","; p "}"; p ";"] /\
  parses_only REPL_T 0 (seq_text line_text [LDecl d1; LDecl d2; LDecl d3])
    (CHAIN_HEAD [
       T_DECL 6
         (CHAIN_HEAD [T_DECL_COMPOUND 2 sstruct (T_IDENTIFIER "s")
            (CHAIN_HEAD [T_DECL 0 (CHAIN_HEAD [T_SPEC T_INT_TS]) (CHAIN_HEAD [T_BITFIELD (T_INTEGER 3) (T_IDENTIFIER "a"); T_BITFIELD (T_INTEGER 2) NULL]);
                         T_DECL 1 (CHAIN_HEAD [T_SPEC T_CHAR_TS]) (CHAIN_HEAD [T_ARRAY (T_IDENTIFIER "c") (T_INTEGER 3)])])])
         (CHAIN_HEAD [T_ASSIGN 5 (T_IDENTIFIER "v")
            (CHAIN_HEAD [T_ASSIGN 3 (CHAIN_HEAD [T_COMP_ACCESS NULL (T_IDENTIFIER "a")]) (T_INTEGER 1);
                         T_ASSIGN 4 (CHAIN_HEAD [T_COMP_ACCESS NULL (T_IDENTIFIER "c"); T_ARRAY_ACCESS NULL (T_INTEGER 2)]) (T_INTEGER 7)])]);
       T_DECL 10 (CHAIN_HEAD [T_SPEC T_INT_TS])
         (CHAIN_HEAD [T_FN (T_IDENTIFIER "f")
            (CHAIN_HEAD [T_DECL 8 (CHAIN_HEAD [T_SPEC T_INT_TS]) (T_FN (T_POINTER NULL) (CHAIN_HEAD [T_DECL 7 (CHAIN_HEAD [T_SPEC T_INT_TS]) NULL]) NULL NULL);
                         T_DECL 9 (CHAIN_HEAD [T_SPEC T_CHAR_TS]) (T_POINTER (T_ARRAY NULL NULL)); T_VARIADIC]) NULL NULL]);
       T_DECL 11 (CHAIN_HEAD [T_ENUMERATOR (T_IDENTIFIER "e") (CHAIN_HEAD [T_IDENTIFIER "A"; T_IDENTIFIER "B"])]) (CHAIN_HEAD [T_IDENTIFIER "k"])]) 12.
Proof. cbv zeta. split; [reflexivity|]. apply C58_lines; [discriminate|repeat constructor|]. reflexivity. Qed.
