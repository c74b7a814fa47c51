(** The grammar of the two parsers, /repo/src/parser.m4, with the actions that build the trees.

    The grammar is data: one production per alternative of the rules in the file, in the same order, with the lines of the
    alternative.  What a bison parser does with it is given by derivations: the tree of an input is the
    value of its derivation, the actions being executed bottom up and from left to right.  Simplifications:
    the automaton of bison is not part of the model (LR.v and ParserFacts.v show that the LALR(1) automaton of the grammar finds the derivation);
    locations are not kept; the side effect of a declaration on the typedef names is the subject of Typename.v; a syntax error is the absence
    of a derivation. *)
From Coq Require Import ZArith List String Ascii Bool.
From Verif Require Import CInt Tree Lexer.
Import ListNotations.
Local Open Scope string_scope.
Local Open Scope nat_scope.
Local Open Scope list_scope.

(** * Symbols *)

(** The nonterminals, /repo/src/parser.m4:181-1602. *)
Inductive nt : Set :=
| primary_expression | postfix_expression | argument_expression_list | unary_expression | cast_expression |
multiplicative_expression | additive_expression | shift_expression | relational_expression | equality_expression |
and_expression | exclusive_or_expression | inclusive_or_expression | logical_and_expression | logical_or_expression |
conditional_expression | constant_expression | assignment_expression | expression | declaration |
declaration_specifiers | declaration_specifier | init_declarator_list | init_declarator | storage_class_specifier |
type_specifier | struct_or_union_specifier | struct_or_union | struct_declaration_list | struct_declaration |
specifier_qualifier_list | specifier_qualifier | struct_declarator_list | struct_declarator | enum_specifier |
enumerator_list | enumerator | type_qualifier | function_specifier | declarator | direct_declarator | pointer |
type_qualifier_list | parameter_type_list | parameter_list | parameter_declaration | identifier_list | type_name |
abstract_declarator | direct_abstract_declarator | initializer | initializer_list | designation | designator_list |
designator | expression_statement | repl_statement | repl_translation_unit | statement | compound_statement |
block_item_list | block_item | selection_statement | iteration_statement | jump_statement | external_declaration |
function_definition | declaration_list | cscript_external_declaration | cscript_translation_unit.

(** Symbols: a character token, a named token (/repo/src/parser.m4:85-113), or a nonterminal. *)
Inductive sym : Set := C (c : ascii) | K (name : string) | NT (a : nt).

(** The token class the scanner returns, /repo/src/lex.m4:139-258; the names are those of /repo/src/parser.m4:85-113. *)
Definition class (t : token) : sym :=
  match t with
  | KW n => K n
  | PUNCT c => C c
  | IDENTIFIER _ => K "IDENTIFIER"
  | TYPE_NAME _ => K "TYPE_NAME"
  | INTEGER _ => K "INTEGER"
  | FLOAT_CST _ => K "FLOAT_CST"
  | CONST_STRING _ => K "CONST_STRING"
  | C_PRE_INC _ => K "C_PRE_INC"
  end.

(** * Values and actions *)

(** Semantic values, the union of /repo/src/parser.m4:70-77: trees and compound types; tokens without a value have none. *)
Inductive val : Type := VTree (t : tree) | VComp (c : compound_type) | VNone.
(** The tree in a value. [$i] in /repo/src/parser.m4:181-1602. *)
Definition tree_of (v : val) : tree := match v with VTree t => t | _ => NULL end.

(** [$$] and the next identity of a node ([T_ASSIGN], [T_RETURN], [T_DECL] and [T_DECL_COMPOUND] nodes have one, Tree.v) from the
    values [$1], [$2], ...; /repo/src/parser.m4:181-1602. *)
Definition action : Type := (nat -> val) -> Z -> val * Z.
(** The default action [$$ = $1].  Also used for the alternatives that only make the node of a token (lines 184-212 and 1390-1395; the
    node is the value of the token below). /repo/src/parser.m4:181-1602. *)
Definition same : action := fun v n => (v 1, n).
(** An action that makes a tree of the trees [$i]; /repo/src/parser.m4:181-1602. *)
Definition node (f : (nat -> tree) -> tree) : action := fun v n => (VTree (f (fun i => tree_of (v i))), n).
(** The same with a new node that has an identity. /repo/src/parser.m4:181-1602. *)
Definition lnode (f : (nat -> tree) -> Z -> tree) : action := fun v n => (VTree (f (fun i => tree_of (v i)) n), (n + 1)%Z).
(** The same where [$1] is a compound type; /repo/src/parser.m4:773-800. *)
Definition comp (f : compound_type -> (nat -> tree) -> Z -> tree) : action := fun v n =>
  (VTree (f (match v 1 with VComp c => c | _ => sstruct end) (fun i => tree_of (v i)) n), (n + 1)%Z).

(** [tree_chain_head], /repo/src/tree.h:121-126. *)
Definition tree_chain_head (t : tree) : tree := CHAIN_HEAD [t].
(** [tree_chain], /repo/src/tree.h:144-147: adds an element at the end of a chain. *)
Definition tree_chain (t head : tree) : tree := match head with CHAIN_HEAD l => CHAIN_HEAD (l ++ [t]) | _ => head end.
(** [tree_chain(e, tEXPR_LIST_CHAIN(l))], /repo/src/parser.m4:609. *)
Definition expr_list_chain (e l : tree) : tree := match l with T_EXPR_LIST c => T_EXPR_LIST (tree_chain e c) | _ => l end.
(** The loop that puts a declarator under the innermost pointer, /repo/src/parser.m4:983-993, 1218-1226. *)
Fixpoint fill (p d : tree) : tree :=
  match p with
  | T_POINTER NULL => T_POINTER d
  | T_POINTER e => T_POINTER (fill e d)
  | _ => p
  end.
(** [tASSIGN_RHS(a) = r], /repo/src/parser.m4:1323, 1332. *)
Definition set_rhs (a r : tree) : tree := match a with T_ASSIGN l lhs _ => T_ASSIGN l lhs r | _ => a end.
(** [tFN_STMTS(d) = b], /repo/src/parser.m4:1561, 1570.  The declarator of the definition need not be a T_FN node: for a function that
    returns a pointer it is a T_POINTER.  The access is then to a field that the node does not have (t3; PropsParser.v), so
    the body is lost.  (With ENABLE_TREE_CHECKS, off by default, the program aborts.) *)
Definition set_stmts (d b : tree) : tree := match d with T_FN e a r _ => T_FN e a r b | _ => d end.

(** A production; /repo/src/parser.m4:181-1602. *)
Record production : Type := mkprod { p_lhs : nt; p_rhs : list sym; p_act : action }.

(** * The productions *)

(** Those of both parsers, /repo/src/parser.m4:183-1384. *)
Definition common : list production :=
  [
   mkprod primary_expression [K "INTEGER"] same;  (* 184-191 *)
   mkprod primary_expression [K "FLOAT_CST"] same;  (* 192-199 *)
   mkprod primary_expression [K "IDENTIFIER"] same;  (* 200-205 *)
   mkprod primary_expression [K "CONST_STRING"] same;  (* 206-212 *)
   mkprod primary_expression [C "("; NT expression; C ")"]  (* 213-216 *)
     (node (fun v => v 2));
   mkprod postfix_expression [NT primary_expression] same;  (* 220-220 *)
   mkprod postfix_expression [NT postfix_expression; C "("; C ")"]  (* 221-228 *)
     (node (fun v => T_FN_CALL (v 1) NULL));
   mkprod postfix_expression [NT postfix_expression; C "("; NT argument_expression_list; C ")"]  (* 229-236 *)
     (node (fun v => T_FN_CALL (v 1) (v 3)));
   mkprod postfix_expression [NT postfix_expression; C "["; NT expression; C "]"]  (* 237-244 *)
     (node (fun v => T_ARRAY_ACCESS (v 1) (v 3)));
   mkprod postfix_expression [NT postfix_expression; K "INC"]  (* 245-251 *)
     (node (fun v => T_P_INC (v 1)));
   mkprod postfix_expression [NT postfix_expression; K "DEC"]  (* 252-258 *)
     (node (fun v => T_P_DEC (v 1)));
   mkprod postfix_expression [NT postfix_expression; C "."; K "IDENTIFIER"]  (* 259-267 *)
     (node (fun v => T_COMP_ACCESS (v 1) (v 3)));
   mkprod postfix_expression [NT postfix_expression; K "PTR_ACCESS"; K "IDENTIFIER"]  (* 268-282 *)
     (node (fun v => T_COMP_ACCESS (T_DEREF (v 1)) (v 3)));
   mkprod argument_expression_list [NT assignment_expression]  (* 286-289 *)
     (node (fun v => tree_chain_head (v 1)));
   mkprod argument_expression_list [NT argument_expression_list; C ","; NT assignment_expression]  (* 290-293 *)
     (node (fun v => tree_chain (v 3) (v 1)));
   mkprod unary_expression [NT postfix_expression] same;  (* 297-297 *)
   mkprod unary_expression [K "INC"; NT unary_expression]  (* 298-304 *)
     (node (fun v => T_INC (v 2)));
   mkprod unary_expression [K "DEC"; NT unary_expression]  (* 305-311 *)
     (node (fun v => T_DEC (v 2)));
   mkprod unary_expression [C "!"; NT unary_expression]  (* 312-318 *)
     (node (fun v => T_NEGATE (v 2)));
   mkprod unary_expression [C "&"; NT unary_expression]  (* 319-325 *)
     (node (fun v => T_ADDR (v 2)));
   mkprod unary_expression [C "*"; NT unary_expression]  (* 326-332 *)
     (node (fun v => T_DEREF (v 2)));
   mkprod unary_expression [C "~"; NT unary_expression]  (* 333-339 *)
     (node (fun v => T_ONES_COMP (v 2)));
   mkprod unary_expression [K "SIZEOF"; NT unary_expression]  (* 340-346 *)
     (node (fun v => T_SIZEOF (v 2)));
   mkprod unary_expression [K "SIZEOF"; C "("; NT type_name; C ")"]  (* 347-353 *)
     (node (fun v => T_SIZEOF (v 3)));
   mkprod cast_expression [NT unary_expression] same;  (* 357-357 *)
   mkprod cast_expression [C "("; NT type_name; C ")"; NT cast_expression]  (* 358-365 *)
     (node (fun v => T_CAST (v 2) (v 4)));
   mkprod multiplicative_expression [NT cast_expression] same;  (* 369-369 *)
   mkprod multiplicative_expression [NT multiplicative_expression; C "*"; NT cast_expression]  (* 370-377 *)
     (node (fun v => T_BINOP MUL (v 1) (v 3)));
   mkprod multiplicative_expression [NT multiplicative_expression; C "/"; NT cast_expression]  (* 378-385 *)
     (node (fun v => T_BINOP DIV (v 1) (v 3)));
   mkprod multiplicative_expression [NT multiplicative_expression; C "%"; NT cast_expression]  (* 386-393 *)
     (node (fun v => T_BINOP MOD (v 1) (v 3)));
   mkprod additive_expression [NT multiplicative_expression] same;  (* 397-397 *)
   mkprod additive_expression [NT additive_expression; C "+"; NT multiplicative_expression]  (* 398-405 *)
     (node (fun v => T_BINOP ADD (v 1) (v 3)));
   mkprod additive_expression [NT additive_expression; C "-"; NT multiplicative_expression]  (* 406-413 *)
     (node (fun v => T_BINOP SUB (v 1) (v 3)));
   mkprod shift_expression [NT additive_expression] same;  (* 417-417 *)
   mkprod shift_expression [NT shift_expression; K "SHIFT_LEFT"; NT additive_expression]  (* 418-425 *)
     (node (fun v => T_BINOP LSHIFT (v 1) (v 3)));
   mkprod shift_expression [NT shift_expression; K "SHIFT_RIGHT"; NT additive_expression]  (* 426-433 *)
     (node (fun v => T_BINOP RSHIFT (v 1) (v 3)));
   mkprod relational_expression [NT shift_expression] same;  (* 437-437 *)
   mkprod relational_expression [NT relational_expression; C "<"; NT shift_expression]  (* 438-444 *)
     (node (fun v => T_CMP LT (v 1) (v 3)));
   mkprod relational_expression [NT relational_expression; C ">"; NT shift_expression]  (* 445-452 *)
     (node (fun v => T_CMP GT (v 1) (v 3)));
   mkprod relational_expression [NT relational_expression; K "LESS_OR_EQUAL"; NT shift_expression]  (* 453-460 *)
     (node (fun v => T_CMP LTEQ (v 1) (v 3)));
   mkprod relational_expression [NT relational_expression; K "GREATER_OR_EQUAL"; NT shift_expression]  (* 461-468 *)
     (node (fun v => T_CMP GTEQ (v 1) (v 3)));
   mkprod equality_expression [NT relational_expression] same;  (* 472-472 *)
   mkprod equality_expression [NT equality_expression; K "EQUATE"; NT relational_expression]  (* 473-480 *)
     (node (fun v => T_CMP EQ (v 1) (v 3)));
   mkprod equality_expression [NT equality_expression; K "NOT_EQUATE"; NT relational_expression]  (* 481-488 *)
     (node (fun v => T_CMP N_EQ (v 1) (v 3)));
   mkprod and_expression [NT equality_expression] same;  (* 492-492 *)
   mkprod and_expression [NT and_expression; C "&"; NT equality_expression]  (* 493-500 *)
     (node (fun v => T_BINOP I_AND (v 1) (v 3)));
   mkprod exclusive_or_expression [NT and_expression] same;  (* 504-504 *)
   mkprod exclusive_or_expression [NT exclusive_or_expression; C "^"; NT and_expression]  (* 505-512 *)
     (node (fun v => T_BINOP X_OR (v 1) (v 3)));
   mkprod inclusive_or_expression [NT exclusive_or_expression] same;  (* 516-516 *)
   mkprod inclusive_or_expression [NT inclusive_or_expression; C "|"; NT exclusive_or_expression]  (* 517-524 *)
     (node (fun v => T_BINOP I_OR (v 1) (v 3)));
   mkprod logical_and_expression [NT inclusive_or_expression] same;  (* 527-527 *)
   mkprod logical_and_expression [NT logical_and_expression; K "BOOL_OP_AND"; NT inclusive_or_expression]  (* 528-535 *)
     (node (fun v => T_L_AND (v 1) (v 3)));
   mkprod logical_or_expression [NT logical_and_expression] same;  (* 538-538 *)
   mkprod logical_or_expression [NT logical_or_expression; K "BOOL_OP_OR"; NT logical_and_expression]  (* 539-546 *)
     (node (fun v => T_L_OR (v 1) (v 3)));
   mkprod conditional_expression [NT logical_or_expression] same;  (* 550-550 *)
   mkprod conditional_expression [NT logical_or_expression; C "?"; NT expression; C ":"; NT conditional_expression]  (* 551-558 *)
     (node (fun v => T_INFIX (v 1) (v 3) (v 5)));
   mkprod constant_expression [NT conditional_expression] same;  (* 561-561 *)
   mkprod assignment_expression [NT conditional_expression] same;  (* 565-565 *)
   mkprod assignment_expression [NT unary_expression; C "="; NT assignment_expression]  (* 566-573 *)
     (lnode (fun v l => T_ASSIGN l (v 1) (v 3)));
   mkprod assignment_expression [NT unary_expression; K "ADD_ASSIGN"; NT assignment_expression]  (* 574-577 *)
     (lnode (fun v l => T_ASSIGN l (v 1) (T_BINOP ADD (v 1) (v 3))));
   mkprod assignment_expression [NT unary_expression; K "SUB_ASSIGN"; NT assignment_expression]  (* 578-581 *)
     (lnode (fun v l => T_ASSIGN l (v 1) (T_BINOP SUB (v 1) (v 3))));
   mkprod assignment_expression [NT unary_expression; K "DIV_ASSIGN"; NT assignment_expression]  (* 582-585 *)
     (lnode (fun v l => T_ASSIGN l (v 1) (T_BINOP DIV (v 1) (v 3))));
   mkprod assignment_expression [NT unary_expression; K "LSHIFT_ASSIGN"; NT assignment_expression]  (* 586-589 *)
     (lnode (fun v l => T_ASSIGN l (v 1) (T_BINOP LSHIFT (v 1) (v 3))));
   mkprod assignment_expression [NT unary_expression; K "RSHIFT_ASSIGN"; NT assignment_expression]  (* 590-593 *)
     (lnode (fun v l => T_ASSIGN l (v 1) (T_BINOP RSHIFT (v 1) (v 3))));
   mkprod assignment_expression [NT unary_expression; K "XOR_ASSIGN"; NT assignment_expression]  (* 594-597 *)
     (lnode (fun v l => T_ASSIGN l (v 1) (T_BINOP X_OR (v 1) (v 3))));
   mkprod expression [NT assignment_expression]  (* 601-606 *)
     (node (fun v => T_EXPR_LIST (tree_chain_head (v 1))));
   mkprod expression [NT expression; C ","; NT assignment_expression]  (* 607-610 *)
     (node (fun v => expr_list_chain (v 3) (v 1)));
   mkprod declaration [NT declaration_specifiers; C ";"]  (* 614-621 *)
     (lnode (fun v l => T_DECL l (v 1) NULL));
   mkprod declaration [NT declaration_specifiers; NT init_declarator_list; C ";"]  (* 622-630 *)
     (lnode (fun v l => T_DECL l (v 1) (v 2)));
   mkprod declaration_specifiers [NT declaration_specifier]  (* 634-637 *)
     (node (fun v => tree_chain_head (v 1)));
   mkprod declaration_specifiers [NT declaration_specifiers; NT declaration_specifier]  (* 638-641 *)
     (node (fun v => tree_chain (v 2) (v 1)));
   mkprod declaration_specifier [NT storage_class_specifier] same;  (* 645-645 *)
   mkprod declaration_specifier [NT type_specifier] same;  (* 646-646 *)
   mkprod declaration_specifier [NT type_qualifier] same;  (* 647-647 *)
   mkprod declaration_specifier [NT function_specifier] same;  (* 648-648 *)
   mkprod init_declarator_list [NT init_declarator]  (* 652-655 *)
     (node (fun v => tree_chain_head (v 1)));
   mkprod init_declarator_list [NT init_declarator_list; C ","; NT init_declarator]  (* 656-659 *)
     (node (fun v => tree_chain (v 3) (v 1)));
   mkprod init_declarator [NT declarator] same;  (* 663-663 *)
   mkprod init_declarator [NT declarator; C "="; NT initializer]  (* 664-671 *)
     (lnode (fun v l => T_ASSIGN l (v 1) (v 3)));
   mkprod storage_class_specifier [K "TYPEDEF"]  (* 675-680 *)
     (node (fun v => T_SPEC T_TYPEDEF));
   mkprod storage_class_specifier [K "EXTERN"]  (* 681-686 *)
     (node (fun v => T_SPEC T_EXTERN));
   mkprod storage_class_specifier [K "STATIC"]  (* 687-692 *)
     (node (fun v => T_SPEC T_STATIC));
   mkprod storage_class_specifier [K "AUTO"]  (* 693-698 *)
     (node (fun v => T_SPEC T_AUTO));
   mkprod storage_class_specifier [K "REGISTER"]  (* 699-704 *)
     (node (fun v => T_SPEC T_REGISTER));
   mkprod type_specifier [K "VOID"]  (* 708-713 *)
     (node (fun v => T_SPEC T_VOID_TS));
   mkprod type_specifier [K "CHAR"]  (* 714-719 *)
     (node (fun v => T_SPEC T_CHAR_TS));
   mkprod type_specifier [K "SHORT"]  (* 720-725 *)
     (node (fun v => T_SPEC T_SHORT_TS));
   mkprod type_specifier [K "INT"]  (* 726-731 *)
     (node (fun v => T_SPEC T_INT_TS));
   mkprod type_specifier [K "LONG"]  (* 732-737 *)
     (node (fun v => T_SPEC T_LONG_TS));
   mkprod type_specifier [K "FLOAT"]  (* 738-743 *)
     (node (fun v => T_SPEC T_FLOAT_TS));
   mkprod type_specifier [K "DOUBLE"]  (* 744-749 *)
     (node (fun v => T_SPEC T_DOUBLE_TS));
   mkprod type_specifier [K "SIGNED"]  (* 750-755 *)
     (node (fun v => T_SPEC T_SIGNED_TS));
   mkprod type_specifier [K "UNSIGNED"]  (* 756-761 *)
     (node (fun v => T_SPEC T_UNSIGNED_TS));
   mkprod type_specifier [K "BOOL"]  (* 762-767 *)
     (node (fun v => T_SPEC T_BOOL_TS));
   mkprod type_specifier [NT struct_or_union_specifier] same;  (* 768-768 *)
   mkprod type_specifier [NT enum_specifier] same;  (* 769-769 *)
   mkprod type_specifier [K "TYPE_NAME"] same;  (* 770-770 *)
   mkprod struct_or_union_specifier [NT struct_or_union; K "IDENTIFIER"; C "{"; NT struct_declaration_list; C "}"]  (* 774-783 *)
     (comp (fun c v l => T_DECL_COMPOUND l c (v 2) (v 4)));
   mkprod struct_or_union_specifier [NT struct_or_union; C "{"; NT struct_declaration_list; C "}"]  (* 784-791 *)
     (comp (fun c v l => T_DECL_COMPOUND l c NULL (v 3)));
   mkprod struct_or_union_specifier [NT struct_or_union; K "IDENTIFIER"]  (* 792-800 *)
     (comp (fun c v l => T_DECL_COMPOUND l c (v 2) NULL));
   mkprod struct_or_union [K "STRUCT"]  (* 804-807 *)
     (fun _ n => (VComp sstruct, n));
   mkprod struct_or_union [K "UNION"]  (* 808-811 *)
     (fun _ n => (VComp uunion, n));
   mkprod struct_declaration_list [NT struct_declaration]  (* 815-818 *)
     (node (fun v => tree_chain_head (v 1)));
   mkprod struct_declaration_list [NT struct_declaration_list; NT struct_declaration]  (* 819-822 *)
     (node (fun v => tree_chain (v 2) (v 1)));
   mkprod struct_declaration [NT specifier_qualifier_list; NT struct_declarator_list; C ";"]  (* 826-833 *)
     (lnode (fun v l => T_DECL l (v 1) (v 2)));
   mkprod struct_declaration [NT specifier_qualifier_list; C ";"]  (* 834-840 *)
     (lnode (fun v l => T_DECL l (v 1) NULL));
   mkprod specifier_qualifier_list [NT specifier_qualifier]  (* 844-847 *)
     (node (fun v => tree_chain_head (v 1)));
   mkprod specifier_qualifier_list [NT specifier_qualifier_list; NT specifier_qualifier]  (* 848-851 *)
     (node (fun v => tree_chain (v 2) (v 1)));
   mkprod specifier_qualifier [NT type_specifier] same;  (* 855-855 *)
   mkprod specifier_qualifier [NT type_qualifier] same;  (* 856-856 *)
   mkprod struct_declarator_list [NT struct_declarator]  (* 860-863 *)
     (node (fun v => tree_chain_head (v 1)));
   mkprod struct_declarator_list [NT struct_declarator_list; C ","; NT struct_declarator]  (* 864-867 *)
     (node (fun v => tree_chain (v 3) (v 1)));
   mkprod struct_declarator [NT declarator] same;  (* 871-871 *)
   mkprod struct_declarator [C ":"; NT constant_expression]  (* 872-878 *)
     (node (fun v => T_BITFIELD (v 2) NULL));
   mkprod struct_declarator [NT declarator; C ":"; NT constant_expression]  (* 879-886 *)
     (node (fun v => T_BITFIELD (v 3) (v 1)));
   mkprod enum_specifier [K "ENUM"; C "{"; NT enumerator_list; C "}"]  (* 890-896 *)
     (node (fun v => T_ENUMERATOR NULL (v 3)));
   mkprod enum_specifier [K "ENUM"; K "IDENTIFIER"; C "{"; NT enumerator_list; C "}"]  (* 897-905 *)
     (node (fun v => T_ENUMERATOR (v 2) (v 4)));
   mkprod enum_specifier [K "ENUM"; C "{"; NT enumerator_list; C ","; C "}"]  (* 906-912 *)
     (node (fun v => T_ENUMERATOR NULL (v 3)));
   mkprod enum_specifier [K "ENUM"; K "IDENTIFIER"; C "{"; NT enumerator_list; C ","; C "}"]  (* 913-921 *)
     (node (fun v => T_ENUMERATOR (v 2) (v 4)));
   mkprod enum_specifier [K "ENUM"; K "IDENTIFIER"]  (* 922-929 *)
     (node (fun v => T_ENUMERATOR (v 2) NULL));
   mkprod enumerator_list [NT enumerator]  (* 933-936 *)
     (node (fun v => tree_chain_head (v 1)));
   mkprod enumerator_list [NT enumerator_list; C ","; NT enumerator]  (* 937-940 *)
     (node (fun v => tree_chain (v 3) (v 1)));
   mkprod enumerator [K "IDENTIFIER"] same;  (* 944-948 *)
   mkprod enumerator [K "IDENTIFIER"; C "="; NT constant_expression]  (* 949-956 *)
     (lnode (fun v l => T_ASSIGN l (v 1) (v 3)));
   mkprod type_qualifier [K "CONST"]  (* 960-963 *)
     (node (fun v => T_SPEC T_CONST));
   mkprod type_qualifier [K "RESTRICT"]  (* 964-967 *)
     (node (fun v => T_SPEC T_RESTRICT));
   mkprod type_qualifier [K "VOLATILE"]  (* 968-971 *)
     (node (fun v => T_SPEC T_VOLATILE));
   mkprod function_specifier [K "INLINE"]  (* 975-978 *)
     (node (fun v => T_SPEC T_INLINE));
   mkprod declarator [NT direct_declarator] same;  (* 982-982 *)
   mkprod declarator [NT pointer; NT direct_declarator]  (* 983-993 *)
     (node (fun v => fill (v 1) (v 2)));
   mkprod direct_declarator [K "IDENTIFIER"] same;  (* 997-1001 *)
   mkprod direct_declarator [C "("; NT declarator; C ")"]  (* 1002-1005 *)
     (node (fun v => v 2));
   mkprod direct_declarator [NT direct_declarator; C "["; NT type_qualifier_list; NT assignment_expression; C "]"]  (* 1006-1014 *)
     (node (fun v => T_ARRAY (v 1) (v 4)));
   mkprod direct_declarator [NT direct_declarator; C "["; NT type_qualifier_list; C "]"]  (* 1015-1022 *)
     (node (fun v => T_ARRAY (v 1) NULL));
   mkprod direct_declarator [NT direct_declarator; C "["; NT assignment_expression; C "]"]  (* 1023-1030 *)
     (node (fun v => T_ARRAY (v 1) (v 3)));
   mkprod direct_declarator [NT direct_declarator; C "["; K "STATIC"; NT type_qualifier_list; NT assignment_expression; C "]"]  (* 1031-1039 *)
     (node (fun v => T_ARRAY (v 1) (v 5)));
   mkprod direct_declarator [NT direct_declarator; C "["; NT type_qualifier_list; K "STATIC"; NT assignment_expression; C "]"]  (* 1040-1048 *)
     (node (fun v => T_ARRAY (v 1) (v 5)));
   mkprod direct_declarator [NT direct_declarator; C "["; NT type_qualifier_list; C "*"; C "]"]  (* 1049-1056 *)
     (node (fun v => T_ARRAY (v 1) NULL));
   mkprod direct_declarator [NT direct_declarator; C "["; C "*"; C "]"]  (* 1057-1063 *)
     (node (fun v => T_POINTER (v 1)));
   mkprod direct_declarator [NT direct_declarator; C "["; C "]"]  (* 1064-1070 *)
     (node (fun v => T_POINTER (v 1)));
   mkprod direct_declarator [NT direct_declarator; C "("; NT parameter_type_list; C ")"]  (* 1071-1078 *)
     (node (fun v => T_FN (v 1) (v 3) NULL NULL));
   mkprod direct_declarator [NT direct_declarator; C "("; NT identifier_list; C ")"]  (* 1079-1086 *)
     (node (fun v => T_FN (v 1) (v 3) NULL NULL));
   mkprod direct_declarator [NT direct_declarator; C "("; C ")"]  (* 1087-1093 *)
     (node (fun v => T_FN (v 1) NULL NULL NULL));
   mkprod pointer [C "*"]  (* 1097-1102 *)
     (node (fun v => T_POINTER NULL));
   mkprod pointer [C "*"; NT type_qualifier_list]  (* 1103-1109 *)
     (node (fun v => T_POINTER NULL));
   mkprod pointer [C "*"; NT pointer]  (* 1110-1116 *)
     (node (fun v => T_POINTER (v 2)));
   mkprod pointer [C "*"; NT type_qualifier_list; NT pointer]  (* 1117-1124 *)
     (node (fun v => T_POINTER (v 3)));
   mkprod type_qualifier_list [NT type_qualifier]  (* 1128-1131 *)
     (node (fun v => tree_chain_head (v 1)));
   mkprod type_qualifier_list [NT type_qualifier_list; NT type_qualifier]  (* 1132-1135 *)
     (node (fun v => tree_chain (v 2) (v 1)));
   mkprod parameter_type_list [NT parameter_list] same;  (* 1139-1139 *)
   mkprod parameter_type_list [NT parameter_list; C ","; K "ELLIPSIS"]  (* 1140-1143 *)
     (node (fun v => tree_chain T_VARIADIC (v 1)));
   mkprod parameter_list [NT parameter_declaration]  (* 1147-1150 *)
     (node (fun v => tree_chain_head (v 1)));
   mkprod parameter_list [NT parameter_list; C ","; NT parameter_declaration]  (* 1151-1154 *)
     (node (fun v => tree_chain (v 3) (v 1)));
   mkprod parameter_declaration [NT declaration_specifiers; NT declarator]  (* 1158-1165 *)
     (lnode (fun v l => T_DECL l (v 1) (v 2)));
   mkprod parameter_declaration [NT declaration_specifiers; NT abstract_declarator]  (* 1166-1173 *)
     (lnode (fun v l => T_DECL l (v 1) (v 2)));
   mkprod parameter_declaration [NT declaration_specifiers]  (* 1174-1180 *)
     (lnode (fun v l => T_DECL l (v 1) NULL));
   mkprod identifier_list [K "IDENTIFIER"]  (* 1184-1188 *)
     (node (fun v => tree_chain_head (v 1)));
   mkprod identifier_list [NT identifier_list; C ","; K "IDENTIFIER"]  (* 1189-1193 *)
     (node (fun v => tree_chain (v 3) (v 1)));
   mkprod type_name [NT specifier_qualifier_list]  (* 1197-1204 *)
     (node (fun v => T_TYPE_SPECIFIER (v 1) NULL));
   mkprod type_name [NT specifier_qualifier_list; NT abstract_declarator]  (* 1205-1212 *)
     (node (fun v => T_TYPE_SPECIFIER (v 1) (v 2)));
   mkprod abstract_declarator [NT pointer] same;  (* 1216-1216 *)
   mkprod abstract_declarator [NT direct_abstract_declarator] same;  (* 1217-1217 *)
   mkprod abstract_declarator [NT pointer; NT direct_abstract_declarator]  (* 1218-1226 *)
     (node (fun v => fill (v 1) (v 2)));
   mkprod direct_abstract_declarator [C "("; NT abstract_declarator; C ")"]  (* 1230-1233 *)
     (node (fun v => v 2));
   mkprod direct_abstract_declarator [C "["; C "]"]  (* 1234-1239 *)
     (node (fun v => T_ARRAY NULL NULL));
   mkprod direct_abstract_declarator [C "["; NT assignment_expression; C "]"]  (* 1240-1246 *)
     (node (fun v => T_ARRAY NULL (v 2)));
   mkprod direct_abstract_declarator [NT direct_abstract_declarator; C "["; C "]"]  (* 1247-1253 *)
     (node (fun v => T_ARRAY (v 1) NULL));
   mkprod direct_abstract_declarator [NT direct_abstract_declarator; C "["; NT assignment_expression; C "]"]  (* 1254-1261 *)
     (node (fun v => T_ARRAY (v 1) (v 3)));
   mkprod direct_abstract_declarator [C "["; C "*"; C "]"]  (* 1262-1267 *)
     (node (fun v => T_ARRAY NULL NULL));
   mkprod direct_abstract_declarator [NT direct_abstract_declarator; C "["; C "*"; C "]"]  (* 1268-1273 *)
     (node (fun v => T_ARRAY (v 1) NULL));
   mkprod direct_abstract_declarator [C "("; C ")"]  (* 1274-1279 *)
     (node (fun v => T_FN NULL NULL NULL NULL));
   mkprod direct_abstract_declarator [C "("; NT parameter_type_list; C ")"]  (* 1280-1286 *)
     (node (fun v => T_FN NULL (v 2) NULL NULL));
   mkprod direct_abstract_declarator [NT direct_abstract_declarator; C "("; C ")"]  (* 1287-1293 *)
     (node (fun v => T_FN (v 1) NULL NULL NULL));
   mkprod direct_abstract_declarator [NT direct_abstract_declarator; C "("; NT parameter_type_list; C ")"]  (* 1294-1301 *)
     (node (fun v => T_FN (v 1) (v 3) NULL NULL));
   mkprod initializer [NT assignment_expression] same;  (* 1305-1305 *)
   mkprod initializer [C "{"; NT initializer_list; C "}"]  (* 1306-1309 *)
     (node (fun v => v 2));
   mkprod initializer [C "{"; NT initializer_list; C ","; C "}"]  (* 1310-1313 *)
     (node (fun v => v 2));
   mkprod initializer_list [NT initializer]  (* 1317-1320 *)
     (node (fun v => tree_chain_head (v 1)));
   mkprod initializer_list [NT designation; NT initializer]  (* 1321-1325 *)
     (node (fun v => tree_chain_head (set_rhs (v 1) (v 2))));
   mkprod initializer_list [NT initializer_list; C ","; NT initializer]  (* 1326-1329 *)
     (node (fun v => tree_chain (v 3) (v 1)));
   mkprod initializer_list [NT initializer_list; C ","; NT designation; NT initializer]  (* 1330-1334 *)
     (node (fun v => tree_chain (set_rhs (v 3) (v 4)) (v 1)));
   mkprod designation [NT designator_list; C "="]  (* 1338-1344 *)
     (lnode (fun v l => T_ASSIGN l (v 1) NULL));
   mkprod designator_list [NT designator]  (* 1348-1351 *)
     (node (fun v => tree_chain_head (v 1)));
   mkprod designator_list [NT designator_list; NT designator]  (* 1352-1355 *)
     (node (fun v => tree_chain (v 2) (v 1)));
   mkprod designator [C "["; NT constant_expression; C "]"]  (* 1359-1365 *)
     (node (fun v => T_ARRAY_ACCESS NULL (v 2)));
   mkprod designator [C "."; K "IDENTIFIER"]  (* 1366-1373 *)
     (node (fun v => T_COMP_ACCESS NULL (v 2)));
   mkprod expression_statement [C ";"]  (* 1377-1382 *)
     (node (fun v => T_EMPTY));
   mkprod expression_statement [NT expression; C ";"] same  (* 1383-1383 *)].

(** Those of the parser of the REPL only, /repo/src/parser.m4:1386-1414. *)
Definition repl_only : list production :=
  [
   mkprod repl_statement [NT expression_statement] same;  (* 1388-1388 *)
   mkprod repl_statement [NT declaration] same;  (* 1389-1389 *)
   mkprod repl_statement [K "C_PRE_INC"] same;  (* 1390-1395 *)
   mkprod repl_statement [C "?"; K "IDENTIFIER"]  (* 1396-1401 *)
     (node (fun v => T_INSPECT (v 2)));
   mkprod repl_translation_unit [NT repl_statement]  (* 1405-1409 *)
     (node (fun v => tree_chain_head (v 1)));
   mkprod repl_translation_unit [NT repl_translation_unit; NT repl_statement]  (* 1410-1413 *)
     (node (fun v => tree_chain (v 2) (v 1)))].

(** Those of the parser of scripts only, /repo/src/parser.m4:1415-1602. *)
Definition cscript_only : list production :=
  [
   mkprod statement [NT expression_statement] same;  (* 1417-1417 *)
   mkprod statement [NT compound_statement] same;  (* 1418-1418 *)
   mkprod statement [NT selection_statement] same;  (* 1419-1419 *)
   mkprod statement [NT iteration_statement] same;  (* 1420-1420 *)
   mkprod statement [NT jump_statement] same;  (* 1421-1421 *)
   mkprod statement [K "REPL"; C ";"]  (* 1422-1427 *)
     (node (fun v => T_REPL));
   mkprod compound_statement [C "{"; C "}"]  (* 1431-1436 *)
     (node (fun v => T_EMPTY));
   mkprod compound_statement [C "{"; NT block_item_list; C "}"]  (* 1437-1440 *)
     (node (fun v => v 2));
   mkprod block_item_list [NT block_item]  (* 1444-1447 *)
     (node (fun v => tree_chain_head (v 1)));
   mkprod block_item_list [NT block_item_list; NT block_item]  (* 1448-1451 *)
     (node (fun v => tree_chain (v 2) (v 1)));
   mkprod block_item [NT declaration] same;  (* 1455-1455 *)
   mkprod block_item [NT statement] same;  (* 1456-1456 *)
   mkprod selection_statement [K "IF"; C "("; NT expression; C ")"; NT statement]  (* 1460-1467 *)
     (node (fun v => T_IF (v 3) (v 5) NULL));
   mkprod selection_statement [K "IF"; C "("; NT expression; C ")"; NT statement; K "ELSE"; NT statement]  (* 1468-1476 *)
     (node (fun v => T_IF (v 3) (v 5) (v 7)));
   mkprod iteration_statement [K "WHILE"; C "("; NT expression; C ")"; NT statement]  (* 1480-1487 *)
     (node (fun v => T_LOOP_WHILE (v 3) (v 5)));
   mkprod iteration_statement [K "FOR"; C "("; NT expression_statement; NT expression_statement; C ")"; NT statement]  (* 1488-1496 *)
     (node (fun v => T_LOOP_FOR (v 3) (v 4) NULL (v 6)));
   mkprod iteration_statement [K "FOR"; C "("; NT expression_statement; NT expression_statement; NT expression; C ")"; NT statement]  (* 1497-1506 *)
     (node (fun v => T_LOOP_FOR (v 3) (v 4) (v 5) (v 7)));
   mkprod iteration_statement [K "FOR"; C "("; NT declaration; NT expression_statement; C ")"; NT statement]  (* 1507-1515 *)
     (node (fun v => T_LOOP_FOR (v 3) (v 4) NULL (v 6)));
   mkprod iteration_statement [K "FOR"; C "("; NT declaration; NT expression_statement; NT expression; C ")"; NT statement]  (* 1516-1525 *)
     (node (fun v => T_LOOP_FOR (v 3) (v 4) (v 5) (v 7)));
   mkprod jump_statement [K "BREAK"; C ";"]  (* 1529-1534 *)
     (node (fun v => T_BREAK));
   mkprod jump_statement [K "RETURN"; C ";"]  (* 1535-1540 *)
     (lnode (fun v l => T_RETURN l NULL));
   mkprod jump_statement [K "RETURN"; NT expression; C ";"]  (* 1541-1547 *)
     (lnode (fun v l => T_RETURN l (v 2)));
   mkprod external_declaration [NT function_definition] same;  (* 1551-1551 *)
   mkprod external_declaration [NT declaration] same;  (* 1552-1552 *)
   mkprod function_definition [NT declaration_specifiers; NT declarator; NT declaration_list; NT compound_statement]  (* 1556-1564 *)
     (lnode (fun v l => T_DECL l (v 1) (tree_chain_head (set_stmts (v 2) (v 4)))));
   mkprod function_definition [NT declaration_specifiers; NT declarator; NT compound_statement]  (* 1565-1573 *)
     (lnode (fun v l => T_DECL l (v 1) (tree_chain_head (set_stmts (v 2) (v 3)))));
   mkprod declaration_list [NT declaration]  (* 1577-1580 *)
     (node (fun v => tree_chain_head (v 1)));
   mkprod declaration_list [NT declaration_list; NT declaration]  (* 1581-1584 *)
     (node (fun v => tree_chain (v 2) (v 1)));
   mkprod cscript_external_declaration [NT external_declaration] same;  (* 1588-1588 *)
   mkprod cscript_external_declaration [NT statement] same;  (* 1589-1589 *)
   mkprod cscript_translation_unit [NT cscript_external_declaration]  (* 1593-1597 *)
     (node (fun v => tree_chain_head (v 1)));
   mkprod cscript_translation_unit [NT cscript_translation_unit; NT cscript_external_declaration]  (* 1598-1601 *)
     (node (fun v => tree_chain (v 2) (v 1)))].

(** The grammar of one of the two parsers; parser-lex-funcs.m4. /repo/src/parser-lex-funcs.m4:1-4. *)
Definition productions (T : target) : list production :=
  common ++ match T with REPL_T => repl_only | CSCRIPT_T => cscript_only end.
(** The start symbol, /repo/src/parser.m4:97. *)
Definition translation_unit (T : target) : nt :=
  match T with REPL_T => repl_translation_unit | CSCRIPT_T => cscript_translation_unit end.

(** * Derivations *)

(** Derivation trees. Of the grammar of /repo/src/parser.m4:181-1602. *)
Inductive ptree : Type := Leaf (t : token) | Node (p : production) (l : list ptree).

(** The class of the next token; None at the end of the input.
    What the parser bison generates from /repo/src/parser.m4 looks at. *)
Definition next (i : list token) : option sym := match i with [] => None | t :: _ => Some (class t) end.

(** [%right ')' ELSE], /repo/src/parser.m4:95: of the two things the parser could do at the token ELSE after IF '(' expression ')'
    statement it goes on with ELSE, since the production (its last token is ')') and ELSE have the same, right-associative
    precedence.  It is the only conflict of the two grammars (LR.v: checked for the automata). *)
Definition blocked (p : production) (la : option sym) : bool :=
  match p_lhs p, p_rhs p, la with
  | selection_statement, [_; _; _; _; _], Some (K "ELSE") => true
  | _, _, _ => false
  end.

(** [derives T X i r d]: the symbol derives the part of the input [i] before [r].
    The language of the grammar /repo/src/parser.m4:181-1602. *)
Inductive derives (T : target) : sym -> list token -> list token -> ptree -> Prop :=
| derives_token t i : derives T (class t) (t :: i) i (Leaf t)
| derives_node p i r l : In p (productions T) -> derives_list T (p_rhs p) i r l -> blocked p (next r) = false ->
    derives T (NT (p_lhs p)) i r (Node p l)
with derives_list (T : target) : list sym -> list token -> list token -> list ptree -> Prop :=
| derives_nil i : derives_list T [] i i []
| derives_cons X Xs i j r d l : derives T X i j d -> derives_list T Xs j r l -> derives_list T (X :: Xs) i r (d :: l).

(** The decimal digits of a floating constant as used by the trees: the digits without the point, and how many are after it.
    (mpf_init_set_str, /repo/src/lex.m4:199.) *)
Definition float_cst (text : list ascii) : tree :=
  let decimals := (fix f s := match s with [] => [] | c :: s => if Ascii.eqb c "." then s else f s end) text in
  T_FLOAT (mpz_decimal (filter (fun c => negb (Ascii.eqb c ".")) text)) (List.length decimals).

(** The value of a token, /repo/src/lex.m4:186-201 and 214, and the node made of it, /repo/src/parser.m4:184-212, 1390-1395. *)
Definition token_value (t : token) : val :=
  match t with
  | KW _ | PUNCT _ => VNone
  | IDENTIFIER x | TYPE_NAME x => VTree (T_IDENTIFIER (string_of_list_ascii x))
  | INTEGER z => VTree (T_INTEGER z)
  | FLOAT_CST text => VTree (float_cst text)
  | CONST_STRING s => VTree (T_STRING (string_of_list_ascii s))
  | C_PRE_INC text => VTree (CPP_INCLUDE (string_of_list_ascii text))
  end.

(** The value of a derivation and the next identity; bison executes the actions at the reductions, that is in this order.
    The actions are those of /repo/src/parser.m4:181-1602. *)
Fixpoint value (d : ptree) (n : Z) : val * Z :=
  match d with
  | Leaf t => (token_value t, n)
  | Node p l =>
      let fix values (l : list ptree) (n : Z) : list val * Z :=
        match l with
        | [] => ([], n)
        | d :: l => let (v, n) := value d n in let (vs, n) := values l n in (v :: vs, n)
        end in
      let (vs, n) := values l n in
      p_act p (fun i => nth (pred i) vs VNone) n
  end.

(** The parser ([replparse], [cscriptparse]) on the tokens [w]: the tree [t] of the translation unit; [n] is the next identity before
    and [n'] after it. Generated from /repo/src/parser.m4; called at /repo/src/repl.c:383-386. *)
Definition parses (T : target) (n : Z) (w : list token) (t : tree) (n' : Z) : Prop :=
  exists d, derives T (NT (translation_unit T)) w [] d /\ value d n = (VTree t, n').
