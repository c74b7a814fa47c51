(** The syntax of programs, independent of the grammar: abstract programs, how they are written as tokens, which of them need
    parentheses (operator precedences as numbers), and the trees they stand for.  Used by the properties of the parser (PropsParser.v). *)
From Coq Require Import ZArith List String Ascii Bool.
From Verif Require Import CInt Tree Lexer.
Import ListNotations.
Local Open Scope string_scope.
Local Open Scope nat_scope.
Local Open Scope list_scope.

Definition name := list ascii.
Definition ident (x : name) : tree := T_IDENTIFIER (string_of_list_ascii x).
Definition p (c : ascii) : token := PUNCT c.

(** * Expressions *)

(** Type specifiers other than definitions, and names of types: specifiers and stars. *)
Inductive base : Set :=
| BVoid | BChar | BShort | BInt | BLong | BFloat | BDouble | BSigned | BUnsigned | BBool
| BName (x : name) | BTag (c : compound_type) (x : name) | BEnum (x : name).
Record type_name := mktype { ty_first : base; ty_more : list base; ty_stars : nat }.

(** Binary operators: arithmetic, comparisons, and the two logical ones. *)
Inductive infix : Set := Arith (op : binop) | Compare (op : cmpop) | LAnd | LOr.
Inductive prefix : Set := LNot | Addr | Deref | OnesComp | SizeOf | PreInc | PreDec.
(** Assignment operators: = and the six that the language has. *)
Inductive assign : Set := Plain | AddA | SubA | DivA | LShiftA | RShiftA | XorA.

Inductive cexp : Type :=
| Num (z : Z) | Flt (text : name) | Str (s : name) | Id (x : name)
| Paren (es : cexps)
| Call0 (f : cexp) | Call (f : cexp) (es : cexps) | Index (a : cexp) (es : cexps)
| PostInc (a : cexp) | PostDec (a : cexp) | Dot (a : cexp) (x : name) | Arrow (a : cexp) (x : name)
| Pre (o : prefix) (a : cexp) | SizeOfType (t : type_name)
| Cast (t : type_name) (a : cexp)
| Infix (o : infix) (a b : cexp)
| Cond (a : cexp) (es : cexps) (c : cexp)
| Assign (o : assign) (a b : cexp)
(** Expressions with commas between them. *)
with cexps : Type := One (e : cexp) | More (es : cexps) (e : cexp).

(** The precedences of C (C99 6.5.5-6.5.14), a higher one binds tighter. *)
Definition prec (o : infix) : nat :=
  match o with
  | Arith MUL | Arith DIV | Arith MOD => 11
  | Arith ADD | Arith SUB => 10
  | Arith LSHIFT | Arith RSHIFT => 9
  | Compare LT | Compare GT | Compare LTEQ | Compare GTEQ => 8
  | Compare EQ | Compare N_EQ => 7
  | Arith I_AND => 6
  | Arith X_OR => 5
  | Arith I_OR => 4
  | LAnd => 3
  | LOr => 2
  end.

(** The level of an expression. *)
Definition level (e : cexp) : nat :=
  match e with
  | Num _ | Flt _ | Str _ | Id _ | Paren _ => 15
  | Call0 _ | Call _ _ | Index _ _ | PostInc _ | PostDec _ | Dot _ _ | Arrow _ _ => 14
  | Pre _ _ | SizeOfType _ => 13
  | Cast _ _ => 12
  | Infix o _ _ => prec o
  | Cond _ _ _ => 1
  | Assign _ _ _ => 0
  end.

(** The expression needs no parentheses beyond those it has: binary operators group to the left, the conditional and assignments
    to the right.  (A difference to C: the operand of a prefix operator must not be a cast.) *)
Fixpoint fits (e : cexp) : Prop :=
  match e with
  | Num _ | Flt _ | Str _ | Id _ | SizeOfType _ => True
  | Paren es => fits_all es
  | Call0 f | PostInc f | PostDec f | Dot f _ | Arrow f _ => 14 <= level f /\ fits f
  | Call f es | Index f es => 14 <= level f /\ fits f /\ fits_all es
  | Pre _ a => 13 <= level a /\ fits a
  | Cast _ a => 12 <= level a /\ fits a
  | Infix o a b => prec o <= level a /\ fits a /\ prec o < level b /\ fits b
  | Cond a es c => 2 <= level a /\ fits a /\ fits_all es /\ 1 <= level c /\ fits c
  | Assign _ a b => 13 <= level a /\ fits a /\ fits b
  end
with fits_all (es : cexps) : Prop :=
  match es with
  | One e => fits e
  | More es e => fits_all es /\ fits e
  end.

(** How it is written. *)
Definition base_text (b : base) : list token :=
  match b with
  | BVoid => [KW "VOID"] | BChar => [KW "CHAR"] | BShort => [KW "SHORT"] | BInt => [KW "INT"] | BLong => [KW "LONG"]
  | BFloat => [KW "FLOAT"] | BDouble => [KW "DOUBLE"] | BSigned => [KW "SIGNED"] | BUnsigned => [KW "UNSIGNED"] | BBool => [KW "BOOL"]
  | BName x => [TYPE_NAME x]
  | BTag sstruct x => [KW "STRUCT"; IDENTIFIER x]
  | BTag uunion x => [KW "UNION"; IDENTIFIER x]
  | BEnum x => [KW "ENUM"; IDENTIFIER x]
  end.
Definition stars (n : nat) : list token := repeat (p "*") n.
Definition type_text (t : type_name) : list token :=
  base_text (ty_first t) ++ List.concat (map base_text (ty_more t)) ++ stars (ty_stars t).

Definition infix_text (o : infix) : token :=
  match o with
  | Arith ADD => p "+" | Arith SUB => p "-" | Arith MUL => p "*" | Arith DIV => p "/" | Arith MOD => p "%"
  | Arith LSHIFT => KW "SHIFT_LEFT" | Arith RSHIFT => KW "SHIFT_RIGHT"
  | Arith I_AND => p "&" | Arith X_OR => p "^" | Arith I_OR => p "|"
  | Compare LT => p "<" | Compare GT => p ">" | Compare LTEQ => KW "LESS_OR_EQUAL" | Compare GTEQ => KW "GREATER_OR_EQUAL"
  | Compare EQ => KW "EQUATE" | Compare N_EQ => KW "NOT_EQUATE"
  | LAnd => KW "BOOL_OP_AND" | LOr => KW "BOOL_OP_OR"
  end.
Definition prefix_text (o : prefix) : token :=
  match o with
  | LNot => p "!" | Addr => p "&" | Deref => p "*" | OnesComp => p "~" | SizeOf => KW "SIZEOF" | PreInc => KW "INC" | PreDec => KW "DEC"
  end.
Definition assign_text (o : assign) : token :=
  match o with
  | Plain => p "=" | AddA => KW "ADD_ASSIGN" | SubA => KW "SUB_ASSIGN" | DivA => KW "DIV_ASSIGN"
  | LShiftA => KW "LSHIFT_ASSIGN" | RShiftA => KW "RSHIFT_ASSIGN" | XorA => KW "XOR_ASSIGN"
  end.

Fixpoint text (e : cexp) : list token :=
  match e with
  | Num z => [INTEGER z]
  | Flt t => [FLOAT_CST t]
  | Str s => [CONST_STRING s]
  | Id x => [IDENTIFIER x]
  | Paren es => p "(" :: texts es ++ [p ")"]
  | Call0 f => text f ++ [p "("; p ")"]
  | Call f es => text f ++ p "(" :: texts es ++ [p ")"]
  | Index a es => text a ++ p "[" :: texts es ++ [p "]"]
  | PostInc a => text a ++ [KW "INC"]
  | PostDec a => text a ++ [KW "DEC"]
  | Dot a x => text a ++ [p "."; IDENTIFIER x]
  | Arrow a x => text a ++ [KW "PTR_ACCESS"; IDENTIFIER x]
  | Pre o a => prefix_text o :: text a
  | SizeOfType t => [KW "SIZEOF"; p "("] ++ type_text t ++ [p ")"]
  | Cast t a => p "(" :: type_text t ++ p ")" :: text a
  | Infix o a b => text a ++ infix_text o :: text b
  | Cond a es c => text a ++ p "?" :: texts es ++ p ":" :: text c
  | Assign o a b => text a ++ assign_text o :: text b
  end
with texts (es : cexps) : list token :=
  match es with
  | One e => text e
  | More es e => texts es ++ p "," :: text e
  end.

(** The trees.  Nodes with an identity get the next free one ([n]) when they are complete; the number returned is the next free one. *)
Definition base_tree (b : base) (n : Z) : tree * Z :=
  match b with
  | BVoid => (T_SPEC T_VOID_TS, n) | BChar => (T_SPEC T_CHAR_TS, n) | BShort => (T_SPEC T_SHORT_TS, n) | BInt => (T_SPEC T_INT_TS, n)
  | BLong => (T_SPEC T_LONG_TS, n) | BFloat => (T_SPEC T_FLOAT_TS, n) | BDouble => (T_SPEC T_DOUBLE_TS, n)
  | BSigned => (T_SPEC T_SIGNED_TS, n) | BUnsigned => (T_SPEC T_UNSIGNED_TS, n) | BBool => (T_SPEC T_BOOL_TS, n)
  | BName x => (ident x, n)
  | BTag c x => (T_DECL_COMPOUND n c (ident x) NULL, (n + 1)%Z)
  | BEnum x => (T_ENUMERATOR (ident x) NULL, n)
  end.
Fixpoint base_trees (l : list base) (n : Z) : list tree * Z :=
  match l with
  | [] => ([], n)
  | b :: l => let (t, n) := base_tree b n in let (ts, n) := base_trees l n in (t :: ts, n)
  end.
Fixpoint pointers (k : nat) (t : tree) : tree := match k with O => t | S k => T_POINTER (pointers k t) end.
Definition type_tree (t : type_name) (n : Z) : tree * Z :=
  let (ts, n) := base_trees (ty_first t :: ty_more t) n in
  (T_TYPE_SPECIFIER (CHAIN_HEAD ts) (pointers (ty_stars t) NULL), n).

Definition infix_tree (o : infix) (a b : tree) : tree :=
  match o with Arith op => T_BINOP op a b | Compare op => T_CMP op a b | LAnd => T_L_AND a b | LOr => T_L_OR a b end.
Definition prefix_tree (o : prefix) (a : tree) : tree :=
  match o with
  | LNot => T_NEGATE a | Addr => T_ADDR a | Deref => T_DEREF a | OnesComp => T_ONES_COMP a | SizeOf => T_SIZEOF a
  | PreInc => T_INC a | PreDec => T_DEC a
  end.
(** What is assigned: [a op= b] stands for [a = a op b]. *)
Definition assigned (o : assign) (a b : tree) : tree :=
  match o with
  | Plain => b
  | AddA => T_BINOP ADD a b | SubA => T_BINOP SUB a b | DivA => T_BINOP DIV a b
  | LShiftA => T_BINOP LSHIFT a b | RShiftA => T_BINOP RSHIFT a b | XorA => T_BINOP X_OR a b
  end.
(** The digits of a floating constant without the point, and how many are after the point. *)
Fixpoint after_point (s : name) : name :=
  match s with [] => [] | c :: s => if Ascii.eqb c "." then s else after_point s end.
Definition float_tree (s : name) : tree :=
  T_FLOAT (mpz_decimal (filter (fun c => negb (Ascii.eqb c ".")) s)) (List.length (after_point s)).

Fixpoint etree (e : cexp) (n : Z) : tree * Z :=
  match e with
  | Num z => (T_INTEGER z, n)
  | Flt t => (float_tree t, n)
  | Str s => (T_STRING (string_of_list_ascii s), n)
  | Id x => (ident x, n)
  | Paren es => let (ts, n) := etrees es n in (T_EXPR_LIST (CHAIN_HEAD ts), n)
  | Call0 f => let (t, n) := etree f n in (T_FN_CALL t NULL, n)
  | Call f es => let (t, n) := etree f n in let (ts, n) := etrees es n in (T_FN_CALL t (CHAIN_HEAD ts), n)
  | Index a es => let (t, n) := etree a n in let (ts, n) := etrees es n in (T_ARRAY_ACCESS t (T_EXPR_LIST (CHAIN_HEAD ts)), n)
  | PostInc a => let (t, n) := etree a n in (T_P_INC t, n)
  | PostDec a => let (t, n) := etree a n in (T_P_DEC t, n)
  | Dot a x => let (t, n) := etree a n in (T_COMP_ACCESS t (ident x), n)
  | Arrow a x => let (t, n) := etree a n in (T_COMP_ACCESS (T_DEREF t) (ident x), n)
  | Pre o a => let (t, n) := etree a n in (prefix_tree o t, n)
  | SizeOfType ty => let (t, n) := type_tree ty n in (T_SIZEOF t, n)
  | Cast ty a => let (t, n) := type_tree ty n in let (t', n) := etree a n in (T_CAST t t', n)
  | Infix o a b => let (t, n) := etree a n in let (t', n) := etree b n in (infix_tree o t t', n)
  | Cond a es c =>
      let (t, n) := etree a n in let (ts, n) := etrees es n in let (t', n) := etree c n in (T_INFIX t (T_EXPR_LIST (CHAIN_HEAD ts)) t', n)
  | Assign o a b => let (t, n) := etree a n in let (t', n) := etree b n in (T_ASSIGN n t (assigned o t t'), (n + 1)%Z)
  end
with etrees (es : cexps) (n : Z) : list tree * Z :=
  match es with
  | One e => let (t, n) := etree e n in ([t], n)
  | More es e => let (ts, n) := etrees es n in let (t, n) := etree e n in (ts ++ [t], n)
  end.
(** An expression in a statement or condition. *)
Definition elist (es : cexps) (n : Z) : tree * Z := let (ts, n) := etrees es n in (T_EXPR_LIST (CHAIN_HEAD ts), n).

(** * Declarations *)

Inductive store : Set := STypedef | SExtern | SStatic | SAuto | SRegister.

(** Enumerators, separated by commas. *)
Inductive cenums : Type := E1 (x : name) (v : option cexp) | EMore (es : cenums) (x : name) (v : option cexp).

Inductive cspec : Type :=
| SStore (s : store)
| SBase (b : base)
| SDef (c : compound_type) (x : option name) (ms : cmembers)   (* struct x { ... } *)
| SEnum (x : option name) (es : cenums) (comma : bool)         (* with or without a comma after the last enumerator *)
with cspecs : Type := S1 (s : cspec) | SMore (ss : cspecs) (s : cspec)
(** Members of a structure: specifiers, and usually declarators or bit-fields, which may have no name. *)
with cmembers : Type := M1 (q : cmember) | MMore (ms : cmembers) (q : cmember)
with cmember : Type := Member (ss : cspecs) (ds : cdeclrs) | Unnamed (ss : cspecs)
with cdeclrs : Type := D1 (d : cfield) | DMore (ds : cdeclrs) (d : cfield)
with cfield : Type := Field (d : cdeclr) | Bits (d : cdeclr) (e : cexp) | Gap (e : cexp)
(** Declarators: stars, and what follows them. *)
with cdeclr : Type := Declr (k : nat) (d : cdirect)
with cdirect : Type :=
| DName (x : name) | DParen (d : cdeclr) | DArray (d : cdirect) (e : cexp) | DUnsized (d : cdirect) | DStar (d : cdirect)
| DFn0 (d : cdirect) | DFn (d : cdirect) (ps : cparams) (variadic : bool) | DFnNames (d : cdirect) (x : name) (l : list name)
with cparams : Type := P1 (q : cparam) | PMore (ps : cparams) (q : cparam)
(** Parameters: with a declarator, or only stars, or stars and a declarator without a name. *)
with cparam : Type := Param (ss : cspecs) (d : cdeclr) | ParamAbs (ss : cspecs) (k : nat) | ParamDirect (ss : cspecs) (k : nat) (a : cabs)
with cabs : Type :=
| AStars (k : nat)                                             (* one star more than k, in parentheses *)
| AParen (k : nat) (a : cabs)
| AUnsized | AArray (e : cexp) | AStar
| AUnsizedOf (a : cabs) | AArrayOf (a : cabs) (e : cexp) | AStarOf (a : cabs)
| AFn0 | AFn (ps : cparams) (variadic : bool)
| AFn0Of (a : cabs) | AFnOf (a : cabs) (ps : cparams) (variadic : bool).

Fixpoint enums_fit (es : cenums) : Prop :=
  match es with
  | E1 _ v => match v with Some e => 1 <= level e /\ fits e | None => True end
  | EMore es _ v => enums_fit es /\ match v with Some e => 1 <= level e /\ fits e | None => True end
  end.
Definition plain_spec (s : cspec) : Prop := match s with SStore _ => False | _ => True end.
Fixpoint plain_specs (ss : cspecs) : Prop := match ss with S1 s => plain_spec s | SMore ss s => plain_specs ss /\ plain_spec s end.

Fixpoint spec_fits (s : cspec) : Prop :=
  match s with SStore _ | SBase _ => True | SDef _ _ ms => members_fit ms | SEnum _ es _ => enums_fit es end
with specs_fit (ss : cspecs) : Prop :=
  match ss with S1 s => spec_fits s | SMore ss s => specs_fit ss /\ spec_fits s end
with members_fit (ms : cmembers) : Prop :=
  match ms with M1 q => member_fits q | MMore ms q => members_fit ms /\ member_fits q end
with member_fits (q : cmember) : Prop :=
  match q with
  | Member ss ds => plain_specs ss /\ specs_fit ss /\ declrs_fit ds
  | Unnamed ss => plain_specs ss /\ specs_fit ss
  end
with declrs_fit (ds : cdeclrs) : Prop :=
  match ds with D1 d => field_fits d | DMore ds d => declrs_fit ds /\ field_fits d end
with field_fits (d : cfield) : Prop :=
  match d with
  | Field d => declr_fits d
  | Bits d e => declr_fits d /\ 1 <= level e /\ fits e
  | Gap e => 1 <= level e /\ fits e
  end
with declr_fits (d : cdeclr) : Prop := match d with Declr _ d => direct_fits d end
with direct_fits (d : cdirect) : Prop :=
  match d with
  | DName _ => True
  | DParen d => declr_fits d
  | DArray d e => direct_fits d /\ fits e
  | DUnsized d | DStar d | DFn0 d | DFnNames d _ _ => direct_fits d
  | DFn d ps _ => direct_fits d /\ params_fit ps
  end
with params_fit (ps : cparams) : Prop :=
  match ps with P1 q => param_fits q | PMore ps q => params_fit ps /\ param_fits q end
with param_fits (q : cparam) : Prop :=
  match q with
  | Param ss d => specs_fit ss /\ declr_fits d
  | ParamAbs ss _ => specs_fit ss
  | ParamDirect ss _ a => specs_fit ss /\ abs_fits a
  end
with abs_fits (a : cabs) : Prop :=
  match a with
  | AStars _ | AUnsized | AStar | AFn0 => True
  | AParen _ a | AUnsizedOf a | AStarOf a | AFn0Of a => abs_fits a
  | AArray e => fits e
  | AArrayOf a e => abs_fits a /\ fits e
  | AFn ps _ => params_fit ps
  | AFnOf a ps _ => abs_fits a /\ params_fit ps
  end.

Definition store_text (s : store) : token :=
  match s with
  | STypedef => KW "TYPEDEF" | SExtern => KW "EXTERN" | SStatic => KW "STATIC" | SAuto => KW "AUTO" | SRegister => KW "REGISTER"
  end.
Definition tag_text (c : compound_type) : token := match c with sstruct => KW "STRUCT" | uunion => KW "UNION" end.
Definition opt_text (x : option name) : list token := match x with Some x => [IDENTIFIER x] | None => [] end.
Definition enum_text (x : name) (v : option cexp) : list token :=
  IDENTIFIER x :: match v with Some e => p "=" :: text e | None => [] end.
Fixpoint enums_text (es : cenums) : list token :=
  match es with E1 x v => enum_text x v | EMore es x v => enums_text es ++ p "," :: enum_text x v end.

Definition comma_text (c : bool) : list token := if c then [p ","] else [].
Definition dots_text (v : bool) : list token := if v then [p ","; KW "ELLIPSIS"] else [].
Definition names_text (x : name) (l : list name) : list token := IDENTIFIER x :: flat_map (fun x => [p ","; IDENTIFIER x]) l.

Fixpoint spec_text (s : cspec) : list token :=
  match s with
  | SStore s => [store_text s]
  | SBase b => base_text b
  | SDef c x ms => tag_text c :: opt_text x ++ p "{" :: members_text ms ++ [p "}"]
  | SEnum x es c => KW "ENUM" :: opt_text x ++ p "{" :: enums_text es ++ comma_text c ++ [p "}"]
  end
with specs_text (ss : cspecs) : list token :=
  match ss with S1 s => spec_text s | SMore ss s => specs_text ss ++ spec_text s end
with members_text (ms : cmembers) : list token :=
  match ms with M1 q => member_text q | MMore ms q => members_text ms ++ member_text q end
with member_text (q : cmember) : list token :=
  match q with Member ss ds => specs_text ss ++ declrs_text ds ++ [p ";"] | Unnamed ss => specs_text ss ++ [p ";"] end
with declrs_text (ds : cdeclrs) : list token :=
  match ds with D1 d => field_text d | DMore ds d => declrs_text ds ++ p "," :: field_text d end
with field_text (d : cfield) : list token :=
  match d with Field d => declr_text d | Bits d e => declr_text d ++ p ":" :: text e | Gap e => p ":" :: text e end
with declr_text (d : cdeclr) : list token := match d with Declr k d => stars k ++ direct_text d end
with direct_text (d : cdirect) : list token :=
  match d with
  | DName x => [IDENTIFIER x]
  | DParen d => p "(" :: declr_text d ++ [p ")"]
  | DArray d e => direct_text d ++ p "[" :: text e ++ [p "]"]
  | DUnsized d => direct_text d ++ [p "["; p "]"]
  | DStar d => direct_text d ++ [p "["; p "*"; p "]"]
  | DFn0 d => direct_text d ++ [p "("; p ")"]
  | DFn d ps v => direct_text d ++ p "(" :: params_text ps ++ dots_text v ++ [p ")"]
  | DFnNames d x l => direct_text d ++ p "(" :: names_text x l ++ [p ")"]
  end
with params_text (ps : cparams) : list token :=
  match ps with P1 q => param_text q | PMore ps q => params_text ps ++ p "," :: param_text q end
with param_text (q : cparam) : list token :=
  match q with
  | Param ss d => specs_text ss ++ declr_text d
  | ParamAbs ss k => specs_text ss ++ stars k
  | ParamDirect ss k a => specs_text ss ++ stars k ++ abs_text a
  end
with abs_text (a : cabs) : list token :=
  match a with
  | AStars k => p "(" :: stars (S k) ++ [p ")"]
  | AParen k a => p "(" :: stars k ++ abs_text a ++ [p ")"]
  | AUnsized => [p "["; p "]"]
  | AArray e => p "[" :: text e ++ [p "]"]
  | AStar => [p "["; p "*"; p "]"]
  | AUnsizedOf a => abs_text a ++ [p "["; p "]"]
  | AArrayOf a e => abs_text a ++ p "[" :: text e ++ [p "]"]
  | AStarOf a => abs_text a ++ [p "["; p "*"; p "]"]
  | AFn0 => [p "("; p ")"]
  | AFn ps v => p "(" :: params_text ps ++ dots_text v ++ [p ")"]
  | AFn0Of a => abs_text a ++ [p "("; p ")"]
  | AFnOf a ps v => abs_text a ++ p "(" :: params_text ps ++ dots_text v ++ [p ")"]
  end.

Definition store_tree (s : store) : tree :=
  T_SPEC match s with STypedef => T_TYPEDEF | SExtern => T_EXTERN | SStatic => T_STATIC | SAuto => T_AUTO | SRegister => T_REGISTER end.
Definition opt_ident (x : option name) : tree := match x with Some x => ident x | None => NULL end.
Definition enum_tree (x : name) (v : option cexp) (n : Z) : tree * Z :=
  match v with Some e => let (t, n) := etree e n in (T_ASSIGN n (ident x) t, (n + 1)%Z) | None => (ident x, n) end.
Fixpoint enums_tree (es : cenums) (n : Z) : list tree * Z :=
  match es with
  | E1 x v => let (t, n) := enum_tree x v n in ([t], n)
  | EMore es x v => let (ts, n) := enums_tree es n in let (t, n) := enum_tree x v n in (ts ++ [t], n)
  end.
Definition dots (v : bool) : list tree := if v then [T_VARIADIC] else [].

(** The tree of a declarator: the stars are outside of what follows them.  An array without a size is a pointer in a declarator with
    a name, and an array in one without a name. *)
Fixpoint spec_tree (s : cspec) (n : Z) : tree * Z :=
  match s with
  | SStore s => (store_tree s, n)
  | SBase b => base_tree b n
  | SDef c x ms => let (ts, n) := members_tree ms n in (T_DECL_COMPOUND n c (opt_ident x) (CHAIN_HEAD ts), (n + 1)%Z)
  | SEnum x es _ => let (ts, n) := enums_tree es n in (T_ENUMERATOR (opt_ident x) (CHAIN_HEAD ts), n)
  end
with specs_tree (ss : cspecs) (n : Z) : list tree * Z :=
  match ss with
  | S1 s => let (t, n) := spec_tree s n in ([t], n)
  | SMore ss s => let (ts, n) := specs_tree ss n in let (t, n) := spec_tree s n in (ts ++ [t], n)
  end
with members_tree (ms : cmembers) (n : Z) : list tree * Z :=
  match ms with
  | M1 q => let (t, n) := member_tree q n in ([t], n)
  | MMore ms q => let (l, n) := members_tree ms n in let (t, n) := member_tree q n in (l ++ [t], n)
  end
with member_tree (q : cmember) (n : Z) : tree * Z :=
  match q with
  | Member ss ds =>
      let (ts, n) := specs_tree ss n in let (us, n) := declrs_tree ds n in (T_DECL n (CHAIN_HEAD ts) (CHAIN_HEAD us), (n + 1)%Z)
  | Unnamed ss => let (ts, n) := specs_tree ss n in (T_DECL n (CHAIN_HEAD ts) NULL, (n + 1)%Z)
  end
with declrs_tree (ds : cdeclrs) (n : Z) : list tree * Z :=
  match ds with
  | D1 d => let (t, n) := field_tree d n in ([t], n)
  | DMore ds d => let (ts, n) := declrs_tree ds n in let (t, n) := field_tree d n in (ts ++ [t], n)
  end
with field_tree (d : cfield) (n : Z) : tree * Z :=
  match d with
  | Field d => declr_tree d n
  | Bits d e => let (t, n) := declr_tree d n in let (u, n) := etree e n in (T_BITFIELD u t, n)
  | Gap e => let (u, n) := etree e n in (T_BITFIELD u NULL, n)
  end
with declr_tree (d : cdeclr) (n : Z) : tree * Z :=
  match d with Declr k d => let (t, n) := direct_tree d n in (pointers k t, n) end
with direct_tree (d : cdirect) (n : Z) : tree * Z :=
  match d with
  | DName x => (ident x, n)
  | DParen d => declr_tree d n
  | DArray d e => let (t, n) := direct_tree d n in let (u, n) := etree e n in (T_ARRAY t u, n)
  | DUnsized d | DStar d => let (t, n) := direct_tree d n in (T_POINTER t, n)
  | DFn0 d => let (t, n) := direct_tree d n in (T_FN t NULL NULL NULL, n)
  | DFn d ps v =>
      let (t, n) := direct_tree d n in
      let (ts, n) := params_tree ps n in (T_FN t (CHAIN_HEAD (ts ++ dots v)) NULL NULL, n)
  | DFnNames d x l => let (t, n) := direct_tree d n in (T_FN t (CHAIN_HEAD (map ident (x :: l))) NULL NULL, n)
  end
with params_tree (ps : cparams) (n : Z) : list tree * Z :=
  match ps with
  | P1 q => let (t, n) := param_tree q n in ([t], n)
  | PMore ps q => let (ts, n) := params_tree ps n in let (t, n) := param_tree q n in (ts ++ [t], n)
  end
with param_tree (q : cparam) (n : Z) : tree * Z :=
  match q with
  | Param ss d => let (ts, n) := specs_tree ss n in let (t, n) := declr_tree d n in (T_DECL n (CHAIN_HEAD ts) t, (n + 1)%Z)
  | ParamAbs ss k => let (ts, n) := specs_tree ss n in (T_DECL n (CHAIN_HEAD ts) (pointers k NULL), (n + 1)%Z)
  | ParamDirect ss k a =>
      let (ts, n) := specs_tree ss n in let (t, n) := abs_tree a n in (T_DECL n (CHAIN_HEAD ts) (pointers k t), (n + 1)%Z)
  end
with abs_tree (a : cabs) (n : Z) : tree * Z :=
  match a with
  | AStars k => (pointers (S k) NULL, n)
  | AParen k a => let (t, n) := abs_tree a n in (pointers k t, n)
  | AUnsized | AStar => (T_ARRAY NULL NULL, n)
  | AArray e => let (u, n) := etree e n in (T_ARRAY NULL u, n)
  | AUnsizedOf a | AStarOf a => let (t, n) := abs_tree a n in (T_ARRAY t NULL, n)
  | AArrayOf a e => let (t, n) := abs_tree a n in let (u, n) := etree e n in (T_ARRAY t u, n)
  | AFn0 => (T_FN NULL NULL NULL NULL, n)
  | AFn ps v => let (ts, n) := params_tree ps n in (T_FN NULL (CHAIN_HEAD (ts ++ dots v)) NULL NULL, n)
  | AFn0Of a => let (t, n) := abs_tree a n in (T_FN t NULL NULL NULL, n)
  | AFnOf a ps v =>
      let (t, n) := abs_tree a n in let (ts, n) := params_tree ps n in (T_FN t (CHAIN_HEAD (ts ++ dots v)) NULL NULL, n)
  end.

(** What an element of a list initialises: elements of arrays and members, one in another. *)
Inductive cdesig : Type := OfIndex (e : cexp) | OfMember (x : name).
Inductive cdesigs : Type := De1 (d : cdesig) | DeMore (ds : cdesigs) (d : cdesig).
Definition desig_fits (d : cdesig) : Prop := match d with OfIndex e => 1 <= level e /\ fits e | OfMember _ => True end.
Fixpoint desigs_fit (ds : cdesigs) : Prop := match ds with De1 d => desig_fits d | DeMore ds d => desigs_fit ds /\ desig_fits d end.
Definition desig_text (d : cdesig) : list token :=
  match d with OfIndex e => p "[" :: text e ++ [p "]"] | OfMember x => [p "."; IDENTIFIER x] end.
Fixpoint desigs_text (ds : cdesigs) : list token := match ds with De1 d => desig_text d | DeMore ds d => desigs_text ds ++ desig_text d end.
Definition desig_tree (d : cdesig) (n : Z) : tree * Z :=
  match d with
  | OfIndex e => let (t, n) := etree e n in (T_ARRAY_ACCESS NULL t, n)
  | OfMember x => (T_COMP_ACCESS NULL (ident x), n)
  end.
Fixpoint desigs_tree (ds : cdesigs) (n : Z) : list tree * Z :=
  match ds with
  | De1 d => let (t, n) := desig_tree d n in ([t], n)
  | DeMore ds d => let (ts, n) := desigs_tree ds n in let (t, n) := desig_tree d n in (ts ++ [t], n)
  end.

(** Initialisers: an expression, or a list in braces, which may end with a comma; its elements may say what they initialise. *)
Inductive cinit : Type := IExp (e : cexp) | IList (is : cinits) (comma : bool)
with cinits : Type := I1 (ds : option cdesigs) (i : cinit) | IMore (is : cinits) (ds : option cdesigs) (i : cinit).
Definition opt_desigs_fit (ds : option cdesigs) : Prop := match ds with Some ds => desigs_fit ds | None => True end.
Fixpoint init_fits (i : cinit) : Prop := match i with IExp e => fits e | IList is _ => inits_fit is end
with inits_fit (is : cinits) : Prop :=
  match is with I1 ds i => opt_desigs_fit ds /\ init_fits i | IMore is ds i => inits_fit is /\ opt_desigs_fit ds /\ init_fits i end.
Definition opt_desigs_text (ds : option cdesigs) : list token := match ds with Some ds => desigs_text ds ++ [p "="] | None => [] end.
Fixpoint init_text (i : cinit) : list token :=
  match i with IExp e => text e | IList is c => p "{" :: inits_text is ++ comma_text c ++ [p "}"] end
with inits_text (is : cinits) : list token :=
  match is with
  | I1 ds i => opt_desigs_text ds ++ init_text i
  | IMore is ds i => inits_text is ++ p "," :: opt_desigs_text ds ++ init_text i
  end.
(** The node of a designated initialiser gets its identity before the initialiser. *)
Fixpoint init_tree (i : cinit) (n : Z) : tree * Z :=
  match i with IExp e => etree e n | IList is _ => let (ts, n) := inits_tree is n in (CHAIN_HEAD ts, n) end
with inits_tree (is : cinits) (n : Z) : list tree * Z :=
  match is with
  | I1 None i => let (t, n) := init_tree i n in ([t], n)
  | I1 (Some ds) i =>
      let (us, k) := desigs_tree ds n in let (t, n) := init_tree i (k + 1)%Z in ([T_ASSIGN k (CHAIN_HEAD us) t], n)
  | IMore is None i => let (ts, n) := inits_tree is n in let (t, n) := init_tree i n in (ts ++ [t], n)
  | IMore is (Some ds) i =>
      let (ts, n) := inits_tree is n in
      let (us, k) := desigs_tree ds n in let (t, n) := init_tree i (k + 1)%Z in (ts ++ [T_ASSIGN k (CHAIN_HEAD us) t], n)
  end.

(** Declarators with initialisers, separated by commas; declarations. *)
Inductive idecls : Type := ID1 (d : cdeclr) (i : option cinit) | IDMore (ds : idecls) (d : cdeclr) (i : option cinit).
Inductive cdecl : Type := Specs (ss : cspecs) | Decl (ss : cspecs) (ds : idecls).

Definition idecl_fits (d : cdeclr) (i : option cinit) : Prop := declr_fits d /\ match i with Some i => init_fits i | None => True end.
Fixpoint idecls_fit (ds : idecls) : Prop := match ds with ID1 d i => idecl_fits d i | IDMore ds d i => idecls_fit ds /\ idecl_fits d i end.
Definition decl_fits (d : cdecl) : Prop := match d with Specs ss => specs_fit ss | Decl ss ds => specs_fit ss /\ idecls_fit ds end.

Definition idecl_text (d : cdeclr) (i : option cinit) : list token :=
  declr_text d ++ match i with Some i => p "=" :: init_text i | None => [] end.
Fixpoint idecls_text (ds : idecls) : list token :=
  match ds with ID1 d i => idecl_text d i | IDMore ds d i => idecls_text ds ++ p "," :: idecl_text d i end.
Definition decl_text (d : cdecl) : list token :=
  match d with Specs ss => specs_text ss ++ [p ";"] | Decl ss ds => specs_text ss ++ idecls_text ds ++ [p ";"] end.

Definition idecl_tree (d : cdeclr) (i : option cinit) (n : Z) : tree * Z :=
  let (t, n) := declr_tree d n in
  match i with Some i => let (u, n) := init_tree i n in (T_ASSIGN n t u, (n + 1)%Z) | None => (t, n) end.
Fixpoint idecls_tree (ds : idecls) (n : Z) : list tree * Z :=
  match ds with
  | ID1 d i => let (t, n) := idecl_tree d i n in ([t], n)
  | IDMore ds d i => let (ts, n) := idecls_tree ds n in let (t, n) := idecl_tree d i n in (ts ++ [t], n)
  end.
Definition decl_tree (d : cdecl) (n : Z) : tree * Z :=
  match d with
  | Specs ss => let (ts, n) := specs_tree ss n in (T_DECL n (CHAIN_HEAD ts) NULL, (n + 1)%Z)
  | Decl ss ds => let (ts, n) := specs_tree ss n in let (us, n) := idecls_tree ds n in (T_DECL n (CHAIN_HEAD ts) (CHAIN_HEAD us), (n + 1)%Z)
  end.

(** * Statements *)

(** The first part of a for statement. *)
Inductive finit : Type := FNone | FExp (es : cexps) | FDecl (d : cdecl).

Inductive cstmt : Type :=
| SEmpty
| SExp (es : cexps)
| SBlock0
| SBlock (is : citems)
| SIf (es : cexps) (s : cstmt)
| SIfElse (es : cexps) (s s' : cstmt)
| SWhile (es : cexps) (s : cstmt)
| SFor (i : finit) (c : option cexps) (a : option cexps) (s : cstmt)
| SBreak
| SReturn (es : option cexps)
| SRepl
with citem : Type := IDecl (d : cdecl) | IStmt (s : cstmt)
with citems : Type := It1 (i : citem) | ItMore (is : citems) (i : citem).

Definition opt_fits (es : option cexps) : Prop := match es with Some es => fits_all es | None => True end.
Definition finit_fits (i : finit) : Prop := match i with FNone => True | FExp es => fits_all es | FDecl d => decl_fits d end.

(** The statement ends with an if that has no else: an else after it would belong to that if. *)
Fixpoint open (s : cstmt) : bool :=
  match s with
  | SIf _ _ => true
  | SIfElse _ _ s => open s
  | SWhile _ s | SFor _ _ _ s => open s
  | _ => false
  end.

Fixpoint stmt_fits (s : cstmt) : Prop :=
  match s with
  | SEmpty | SBlock0 | SBreak | SRepl => True
  | SExp es => fits_all es
  | SBlock is => items_fit is
  | SIf es s => fits_all es /\ stmt_fits s
  | SIfElse es s s' => fits_all es /\ stmt_fits s /\ open s = false /\ stmt_fits s'
  | SWhile es s => fits_all es /\ stmt_fits s
  | SFor i c a s => finit_fits i /\ opt_fits c /\ opt_fits a /\ stmt_fits s
  | SReturn es => opt_fits es
  end
with item_fits (i : citem) : Prop := match i with IDecl d => decl_fits d | IStmt s => stmt_fits s end
with items_fit (is : citems) : Prop := match is with It1 i => item_fits i | ItMore is i => items_fit is /\ item_fits i end.

Definition opt_texts (es : option cexps) : list token := match es with Some es => texts es | None => [] end.
Definition finit_text (i : finit) : list token :=
  match i with FNone => [p ";"] | FExp es => texts es ++ [p ";"] | FDecl d => decl_text d end.

Fixpoint stmt_text (s : cstmt) : list token :=
  match s with
  | SEmpty => [p ";"]
  | SExp es => texts es ++ [p ";"]
  | SBlock0 => [p "{"; p "}"]
  | SBlock is => p "{" :: items_text is ++ [p "}"]
  | SIf es s => KW "IF" :: p "(" :: texts es ++ p ")" :: stmt_text s
  | SIfElse es s s' => KW "IF" :: p "(" :: texts es ++ p ")" :: stmt_text s ++ KW "ELSE" :: stmt_text s'
  | SWhile es s => KW "WHILE" :: p "(" :: texts es ++ p ")" :: stmt_text s
  | SFor i c a s => KW "FOR" :: p "(" :: finit_text i ++ opt_texts c ++ p ";" :: opt_texts a ++ p ")" :: stmt_text s
  | SBreak => [KW "BREAK"; p ";"]
  | SReturn es => KW "RETURN" :: opt_texts es ++ [p ";"]
  | SRepl => [KW "REPL"; p ";"]
  end
with item_text (i : citem) : list token := match i with IDecl d => decl_text d | IStmt s => stmt_text s end
with items_text (is : citems) : list token := match is with It1 i => item_text i | ItMore is i => items_text is ++ item_text i end.

(** Missing expressions: an empty statement, or nothing. *)
Definition opt_stmt (es : option cexps) (n : Z) : tree * Z := match es with Some es => elist es n | None => (T_EMPTY, n) end.
Definition opt_tree (es : option cexps) (n : Z) : tree * Z := match es with Some es => elist es n | None => (NULL, n) end.
Definition finit_tree (i : finit) (n : Z) : tree * Z := match i with FNone => (T_EMPTY, n) | FExp es => elist es n | FDecl d => decl_tree d n end.

Fixpoint stmt_tree (s : cstmt) (n : Z) : tree * Z :=
  match s with
  | SEmpty => (T_EMPTY, n)
  | SExp es => elist es n
  | SBlock0 => (T_EMPTY, n)
  | SBlock is => let (ts, n) := items_tree is n in (CHAIN_HEAD ts, n)
  | SIf es s => let (c, n) := elist es n in let (t, n) := stmt_tree s n in (T_IF c t NULL, n)
  | SIfElse es s s' =>
      let (c, n) := elist es n in let (t, n) := stmt_tree s n in let (t', n) := stmt_tree s' n in (T_IF c t t', n)
  | SWhile es s => let (c, n) := elist es n in let (t, n) := stmt_tree s n in (T_LOOP_WHILE c t, n)
  | SFor i c a s =>
      let (ti, n) := finit_tree i n in let (tc, n) := opt_stmt c n in let (ta, n) := opt_tree a n in
      let (t, n) := stmt_tree s n in (T_LOOP_FOR ti tc ta t, n)
  | SBreak => (T_BREAK, n)
  | SReturn es => let (t, n) := opt_tree es n in (T_RETURN n t, (n + 1)%Z)
  | SRepl => (T_REPL, n)
  end
with item_tree (i : citem) (n : Z) : tree * Z := match i with IDecl d => decl_tree d n | IStmt s => stmt_tree s n end
with items_tree (is : citems) (n : Z) : list tree * Z :=
  match is with
  | It1 i => let (t, n) := item_tree i n in ([t], n)
  | ItMore is i => let (ts, n) := items_tree is n in let (t, n) := item_tree i n in (ts ++ [t], n)
  end.

(** * Scripts and lines *)

(** What a script consists of: definitions of functions, declarations, and statements. *)
Inductive cext : Type :=
| XFn (ss : cspecs) (d : cdeclr) (b : option citems)
| XOldFn (ss : cspecs) (d : cdeclr) (p : cdecl) (ps : list cdecl) (b : option citems)   (* with declarations of the parameters *)
| XDecl (d : cdecl)
| XStmt (s : cstmt).

Definition ext_fits (x : cext) : Prop :=
  match x with
  | XFn ss d b => specs_fit ss /\ declr_fits d /\ match b with Some is => items_fit is | None => True end
  | XOldFn ss d p ps b => specs_fit ss /\ declr_fits d /\ Forall decl_fits (p :: ps) /\ match b with Some is => items_fit is | None => True end
  | XDecl d => decl_fits d
  | XStmt s => stmt_fits s
  end.
Definition body_text (b : option citems) : list token := p "{" :: match b with Some is => items_text is | None => [] end ++ [p "}"].
Definition ext_text (x : cext) : list token :=
  match x with
  | XFn ss d b => specs_text ss ++ declr_text d ++ body_text b
  | XOldFn ss d p ps b => specs_text ss ++ declr_text d ++ List.concat (map decl_text (p :: ps)) ++ body_text b
  | XDecl d => decl_text d
  | XStmt s => stmt_text s
  end.
(** The body becomes part of the function if the outermost part of the declarator is the function; otherwise it is dropped. *)
Definition with_body (d b : tree) : tree := match d with T_FN e a r _ => T_FN e a r b | _ => d end.
Definition body_tree (b : option citems) (n : Z) : tree * Z :=
  match b with Some is => let (us, n) := items_tree is n in (CHAIN_HEAD us, n) | None => (T_EMPTY, n) end.
(** The number of nodes with an identity in declarations: those of the parameters of an old function are not part of the tree. *)
Fixpoint after_decls (l : list cdecl) (n : Z) : Z := match l with [] => n | d :: l => after_decls l (snd (decl_tree d n)) end.
Definition ext_tree (x : cext) (n : Z) : tree * Z :=
  match x with
  | XFn ss d b =>
      let (ts, n) := specs_tree ss n in let (t, n) := declr_tree d n in let (tb, n) := body_tree b n in
      (T_DECL n (CHAIN_HEAD ts) (CHAIN_HEAD [with_body t tb]), (n + 1)%Z)
  | XOldFn ss d p ps b =>
      let (ts, n) := specs_tree ss n in let (t, n) := declr_tree d n in let (tb, n) := body_tree b (after_decls (p :: ps) n) in
      (T_DECL n (CHAIN_HEAD ts) (CHAIN_HEAD [with_body t tb]), (n + 1)%Z)
  | XDecl d => decl_tree d n
  | XStmt s => stmt_tree s n
  end.

(** What is typed at the prompt. *)
Inductive cline : Type := LEmpty | LExp (es : cexps) | LDecl (d : cdecl) | LInclude (text : name) | LInspect (x : name).
Definition line_fits (x : cline) : Prop := match x with LExp es => fits_all es | LDecl d => decl_fits d | _ => True end.
Definition line_text (x : cline) : list token :=
  match x with
  | LEmpty => [p ";"] | LExp es => texts es ++ [p ";"] | LDecl d => decl_text d
  | LInclude s => [C_PRE_INC s] | LInspect x => [p "?"; IDENTIFIER x]
  end.
Definition line_tree (x : cline) (n : Z) : tree * Z :=
  match x with
  | LEmpty => (T_EMPTY, n) | LExp es => elist es n | LDecl d => decl_tree d n
  | LInclude s => (CPP_INCLUDE (string_of_list_ascii s), n) | LInspect x => (T_INSPECT (ident x), n)
  end.

(** Sequences of them. *)
Section Sequence.
Context {A : Type} (text : A -> list token) (tree_of : A -> Z -> tree * Z).
Definition seq_text (l : list A) : list token := List.concat (map text l).
Fixpoint seq_tree (l : list A) (n : Z) : list tree * Z :=
  match l with
  | [] => ([], n)
  | x :: l => let (t, n) := tree_of x n in let (ts, n) := seq_tree l n in (t :: ts, n)
  end.
End Sequence.
