(** The syntax/value trees of the interpreter, /repo/src/c.lang:15-253.

    Constructors have the names of the node types.  Simplifications:
    - [NULL] is the null tree pointer;
    - a [CHAIN_HEAD] is the list of its elements (the linked-list
      representation is the subject of ListC.v);
    - the binary arithmetic and comparison nodes are grouped in [T_BINOP] and
      [T_CMP] with an operator tag;
    - nodes that the evaluator overwrites carry a label [l : Z] standing for
      the identity of the node: [T_ASSIGN], [T_RETURN], [T_DECL],
      [T_DECL_COMPOUND], [E_INCOMP_TYPE];
    - locations, qualifiers and bit-field widths of declarators are kept only
      where the evaluator reads them;
    - floating constants keep their decimal digits (numerator, number of
      decimals) and are interpreted by the environment. *)
From Coq Require Import ZArith List String Bool.
From Verif Require Import CInt.
Import ListNotations.

(** Operators of the nodes T_ADD .. T_MOD, /repo/src/c.lang:54-104. *)
Inductive binop : Set :=
| ADD | SUB | LSHIFT | RSHIFT | I_OR | X_OR | I_AND | MUL | DIV | MOD.

(** Operators of the nodes T_LT .. T_N_EQ, /repo/src/c.lang:75-91. *)
Inductive cmpop : Set := LT | GT | LTEQ | GTEQ | EQ | N_EQ.

(** Declaration specifiers without children, /repo/src/c.lang:117-139. *)
Inductive spec : Set :=
| T_TYPEDEF | T_EXTERN | T_STATIC | T_AUTO | T_REGISTER
| T_VOID_TS | T_CHAR_TS | T_SHORT_TS | T_INT_TS | T_LONG_TS | T_FLOAT_TS
| T_DOUBLE_TS | T_SIGNED_TS | T_UNSIGNED_TS | T_BOOL_TS
| T_CONST | T_RESTRICT | T_VOLATILE | T_INLINE.

(** [compound_type], /repo/src/c.lang:186 (field TYPE). *)
Inductive compound_type : Set := sstruct | uunion.

(** The two builtins installed by /repo/src/evaluate.c:2812-2826. *)
Inductive builtin : Set := strcpy_chk | strcat_chk.

(** /repo/src/c.lang:15-253, see the header of this file. *)
Inductive tree : Type :=
| NULL
| T_INTEGER (VAL : Z)
| T_FLOAT (num : Z) (decimals : nat)
| T_STRING (VAL : string)
| T_P_INC (EXP : tree) | T_P_DEC (EXP : tree) | T_INC (EXP : tree) | T_DEC (EXP : tree)
| T_NEGATE (EXP : tree) | T_ONES_COMP (EXP : tree) | T_SIZEOF (EXP : tree)
| T_IDENTIFIER (STR : string)
| T_POINTER (EXP : tree)
| T_INSPECT (EXP : tree)
| T_BINOP (op : binop) (LHS RHS : tree)
| T_CMP (op : cmpop) (LHS RHS : tree)
| T_L_OR (LHS RHS : tree) | T_L_AND (LHS RHS : tree)
| T_COMMA (LHS RHS : tree)
| T_IF (COND TRUE_STMTS ELSE_STMTS : tree)
| T_ASSIGN (l : Z) (LHS RHS : tree)
| T_CAST (NEWTYPE EXP : tree)
| T_SPEC (sp : spec)
| T_EMPTY
| T_EXPR_LIST (CHAIN : tree)
| T_BITFIELD (SZ DECLARATOR : tree)
| T_COMP_ACCESS (OBJ MEMBER : tree)
| T_ARRAY_ACCESS (OBJ IDX : tree)
| T_ADDR (EXP : tree)
| T_DEREF (EXP : tree)
| T_ARRAY (DECL SZ : tree)
| T_ARRAY_TYPE (BASE_TYPE SZ : tree)
| T_DECL (l : Z) (SPECS DECLS : tree)
| T_TYPE_SPECIFIER (SPECS DECL : tree)
| T_DECL_COMPOUND (l : Z) (TYPE : compound_type) (ID DECLS : tree)
| T_FN (DECL ARGS RET_TYPE STMTS : tree)
| T_BUILTIN (HANDLER : builtin)
| T_FN_CALL (ID ARGS : tree)
| T_INFIX (COND TRUE_STMT FALSE_STMT : tree)
| T_LOOP_FOR (INIT COND AFTER STMTS : tree)
| T_LOOP_WHILE (COND STMTS : tree)
| T_RETURN (l : Z) (EXP : tree)
| T_BREAK
| T_REPL
| T_ENUMERATOR (NAME ENUMS : tree)
| T_VARIADIC
| T_LIVE_VAR (TYPE : tree) (VAL : Z) (IS_ARRAY : bool) (ARRAY_SZ : Z)
| T_LIVE_COMPOUND (DECL : tree) (MEMBERS : list (string * tree)) (BASE : Z)
| CHAIN_HEAD (elems : list tree)
| E_INCOMP_TYPE (l : Z)
| CPP_INCLUDE (STR : string)
| D_T_VOID
| T_EXT_FUNC (FN : tree)
| D_T (c : ctype)
| D_T_PTR (EXP : tree).

(** [is_T_INTEGER] etc., generated by /repo/src/tree.h:171-184; all of them are
    false on NULL. *)
Definition is_NULL (t : tree) : bool := match t with NULL => true | _ => false end.
(** /repo/src/tree.h:171-184 *)
Definition is_T_INTEGER (t : tree) : bool := match t with T_INTEGER _ => true | _ => false end.
(** /repo/src/tree.h:171-184 *)
Definition is_T_IDENTIFIER (t : tree) : bool := match t with T_IDENTIFIER _ => true | _ => false end.
(** /repo/src/tree.h:171-184 *)
Definition is_T_ENUMERATOR (t : tree) : bool := match t with T_ENUMERATOR _ _ => true | _ => false end.
(** /repo/src/tree.h:171-184 *)
Definition is_T_VARIADIC (t : tree) : bool := match t with T_VARIADIC => true | _ => false end.
(** /repo/src/tree.h:171-184 *)
Definition is_D_T_VOID (t : tree) : bool := match t with D_T_VOID => true | _ => false end.
(** /repo/src/tree.h:171-184 *)
Definition is_T_POINTER (t : tree) : bool := match t with T_POINTER _ => true | _ => false end.
(** /repo/src/tree.h:235-250 *)
Definition is_CTYPE (t : tree) : bool := match t with D_T _ | D_T_PTR _ => true | _ => false end.

(** The iteration [for_each_tree(i, head)] of /repo/src/tree.h:154-156.  A NULL
    head gives no iterations.  Simplification: iterating over a node that is
    not a chain head is only done by [__evaluate] (modelled there) and by
    declarator lists, where the parser always supplies a chain; it is taken to
    give no iterations. *)
Definition chain_elems (t : tree) : list tree :=
  match t with CHAIN_HEAD l => l | _ => [] end.

(** [chain_has_T_TYPEDEF] etc., /repo/src/tree.h:200-215, for specifiers. *)
Definition chain_has (sp : spec) (chain : tree) : bool :=
  existsb (fun t => match t, sp with
                    | T_SPEC T_TYPEDEF, T_TYPEDEF => true
                    | T_SPEC T_EXTERN, T_EXTERN => true
                    | T_SPEC T_STATIC, T_STATIC => true
                    | _, _ => false
                    end) (chain_elems chain).

(** [resolve_ptr_type], /repo/src/evaluate.h:6-14: moves pointer declarators from
    the declarator to the type. *)
Fixpoint resolve_ptr_type (ptr base_type : tree) : tree * tree :=
  match ptr with
  | T_POINTER e => resolve_ptr_type e (D_T_PTR base_type)
  | _ => (ptr, base_type)
  end.
