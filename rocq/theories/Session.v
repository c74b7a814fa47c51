(** The loop of the REPL: a line is scanned and parsed, preprocessed, parsed again, evaluated, and the value is printed.
    /repo/src/repl.c:372-431, 457-485 and /repo/src/pretty-printer.c.  The parts are modelled in Lexer.v, Grammar.v, Typename.v, Repl.v
    and Eval.v. *)
From Coq Require Import ZArith List String Ascii Bool HexadecimalString.
From Verif Require Import CInt Tree State Eval Lexer Grammar Typename Repl.
From Verif Require SpecLang CLang.
Import ListNotations.
Local Open Scope string_scope.
Local Open Scope Z_scope.
Local Open Scope list_scope.

(** The characters of a string constant, as in /repo/src/pretty-printer.c:12-60. *)
Definition chars (s : string) : text := list_ascii_of_string s.

(** * What is outside *)

(** The programs and library functions the REPL relies on: what the preprocessor writes for a file (/repo/src/preprocess.c:13-90), how
    printf shows a floating-point number of a type, given as its bits (/repo/src/pretty-printer.c:22), and how gmp_printf shows the
    number [z * 10^-d] (/repo/src/pretty-printer.c:71).  [h_place s x]: the file and line in the locus of what the name [x] stands for
    (/repo/src/tree.h:64-70; the trees of the model have no loci). *)
Record host := mkhost { h_cpp : text -> text; h_fp : ctype -> Z -> text; h_mpf : Z -> nat -> text; h_place : state -> string -> text * Z }.

(** * The pretty printer *)

Section Printer.
Variable H : host.
Variable s : state.

(** [%p] of glibc, /repo/src/pretty-printer.c:22. *)
Definition print_pointer (a : Z) : text :=
  if a =? 0 then chars "(nil)" else chars "0x" ++ list_ascii_of_string (HexadecimalString.NilZero.string_of_uint (N.to_hex_uint (Z.to_N a))).

(** [%s]: the bytes up to the first NUL, /repo/src/pretty-printer.c:36; None: a byte that may not be read. *)
Fixpoint c_string (fuel : nat) (a : Z) : option text :=
  match fuel with
  | O => None
  | S fuel =>
      if valid s a 1 then
        if mem s a mod 256 =? 0 then Some []
        else match c_string fuel (a + 1) with Some t => Some (ascii_of_N (Z.to_N (mem s a mod 256)) :: t) | None => None end
      else None
  end.
(** No string is longer than all blocks together.
    A bound for [c_string] in the model of /repo/src/pretty-printer.c:15-41. *)
Definition all_bytes : nat := S (fold_right (fun b n => (Z.to_nat (b_size b) + n)%nat) O (blocks s)).

(** [pp_live_var], /repo/src/pretty-printer.c:15-41, with the formats of /repo/src/c.lang:255-269; None: undefined behaviour. *)
Definition pp_live_var (type : tree) (a : Z) : option text :=
  match type with
  | D_T c =>
      if valid s a (csize c) then
        let v := le_load (mem s) a (Z.to_nat (csize c)) in
        Some (if is_intty c then print_integer (conv c v) else h_fp H c v)
      else None
  | D_T_PTR e =>
      if valid s a 8 then
        let p := le_load (mem s) a 8 in
        match e with
        | D_T D_T_CHAR =>
            if p =? 0 then Some (print_pointer p)
            else match c_string all_bytes p with Some t => Some (print_pointer p ++ chars " (""" ++ t ++ chars """)") | None => None end
        | _ => Some (print_pointer p)
        end
      else None
  | _ => Some (chars "<Unprintable>")
  end.

(** [pp_print_indent], /repo/src/pretty-printer.c:7-13. *)
Fixpoint pp_print_indent (depth : nat) : text := match depth with O => [] | S d => chars "    " ++ pp_print_indent d end.

(** [__pp_1] and [pp_live_compound], /repo/src/pretty-printer.c:43-88. *)
Fixpoint pp_1 (t : tree) (depth : nat) : option text :=
  match t with
  | T_INTEGER z => Some (print_integer z)
  | T_FLOAT num d => Some (h_mpf H num d)
  | T_STRING x => Some (chars """" ++ chars x ++ chars """")
  | T_IDENTIFIER x => Some (chars x)
  | T_LIVE_VAR type a _ _ => pp_live_var type a
  | T_LIVE_COMPOUND _ members _ =>
      let fix each (l : list (string * tree)) : option text :=
        match l with
        | [] => Some []
        | (x, r) :: l =>
            match pp_1 r (S depth), each l with
            | Some v, Some rest => Some (pp_print_indent (S depth) ++ chars "." ++ chars x ++ chars " = " ++ v ++ [newline] ++ rest)
            | _, _ => None
            end
        end in
      match each members with Some m => Some (chars "{" ++ [newline] ++ m ++ chars "}") | None => None end
  | _ => Some []
  end.

(** [pretty_print] and [__pp], /repo/src/pretty-printer.c:90-111. *)
Definition pretty_print (t : tree) : option text :=
  match t with
  | NULL => Some []
  | CHAIN_HEAD l =>
      fold_right (fun i r => match pp_1 i 1, r with Some a, Some b => Some (a ++ b) | _, _ => None end) (Some []) l
  | _ => pp_1 t 0
  end.
End Printer.

(** * Inspecting names *)

(** The name of the node type in c.lang; /repo/src/c.lang:15-253. *)
Definition binop_name (o : binop) : string :=
  match o with ADD => "T_ADD" | SUB => "T_SUB" | LSHIFT => "T_LSHIFT" | RSHIFT => "T_RSHIFT" | I_OR => "T_I_OR" | X_OR => "T_X_OR"
  | I_AND => "T_I_AND" | MUL => "T_MUL" | DIV => "T_DIV" | MOD => "T_MOD" end.
(** The same for comparisons, /repo/src/c.lang:75-91. *)
Definition cmpop_name (o : cmpop) : string :=
  match o with LT => "T_LT" | GT => "T_GT" | LTEQ => "T_LTEQ" | GTEQ => "T_GTEQ" | EQ => "T_EQ" | N_EQ => "T_N_EQ" end.
(** The same for specifiers, /repo/src/c.lang:117-139. *)
Definition spec_name (x : spec) : string :=
  match x with T_TYPEDEF => "T_TYPEDEF" | T_EXTERN => "T_EXTERN" | T_STATIC => "T_STATIC" | T_AUTO => "T_AUTO" | T_REGISTER => "T_REGISTER"
  | T_VOID_TS => "T_VOID_TS" | T_CHAR_TS => "T_CHAR_TS" | T_SHORT_TS => "T_SHORT_TS" | T_INT_TS => "T_INT_TS" | T_LONG_TS => "T_LONG_TS"
  | T_FLOAT_TS => "T_FLOAT_TS" | T_DOUBLE_TS => "T_DOUBLE_TS" | T_SIGNED_TS => "T_SIGNED_TS" | T_UNSIGNED_TS => "T_UNSIGNED_TS"
  | T_BOOL_TS => "T_BOOL_TS" | T_CONST => "T_CONST" | T_RESTRICT => "T_RESTRICT" | T_VOLATILE => "T_VOLATILE" | T_INLINE => "T_INLINE" end.
(** The same for the types of numbers, /repo/src/c.lang:255-269. *)
Definition ctype_name (c : ctype) : string :=
  match c with D_T_CHAR => "D_T_CHAR" | D_T_SHORT => "D_T_SHORT" | D_T_INT => "D_T_INT" | D_T_LONG => "D_T_LONG" | D_T_LONGLONG => "D_T_LONGLONG"
  | D_T_UCHAR => "D_T_UCHAR" | D_T_USHORT => "D_T_USHORT" | D_T_UINT => "D_T_UINT" | D_T_ULONG => "D_T_ULONG" | D_T_ULONGLONG => "D_T_ULONGLONG"
  | D_T_FLOAT => "D_T_FLOAT" | D_T_DOUBLE => "D_T_DOUBLE" | D_T_LONGDOUBLE => "D_T_LONGDOUBLE" end.
(** [TYPE(t)], /repo/src/tree.h:79; NULL has none. *)
Definition node_type (t : tree) : string :=
  match t with
  | NULL => "" | T_INTEGER _ => "T_INTEGER" | T_FLOAT _ _ => "T_FLOAT" | T_STRING _ => "T_STRING" | T_P_INC _ => "T_P_INC" | T_P_DEC _ => "T_P_DEC"
  | T_INC _ => "T_INC" | T_DEC _ => "T_DEC" | T_NEGATE _ => "T_NEGATE" | T_ONES_COMP _ => "T_ONES_COMP" | T_SIZEOF _ => "T_SIZEOF"
  | T_IDENTIFIER _ => "T_IDENTIFIER" | T_POINTER _ => "T_POINTER" | T_INSPECT _ => "T_INSPECT" | T_BINOP o _ _ => binop_name o
  | T_CMP o _ _ => cmpop_name o | T_L_OR _ _ => "T_L_OR" | T_L_AND _ _ => "T_L_AND" | T_COMMA _ _ => "T_COMMA" | T_IF _ _ _ => "T_IF"
  | T_ASSIGN _ _ _ => "T_ASSIGN" | T_CAST _ _ => "T_CAST" | T_SPEC x => spec_name x | T_EMPTY => "T_EMPTY" | T_EXPR_LIST _ => "T_EXPR_LIST"
  | T_BITFIELD _ _ => "T_BITFIELD" | T_COMP_ACCESS _ _ => "T_COMP_ACCESS" | T_ARRAY_ACCESS _ _ => "T_ARRAY_ACCESS" | T_ADDR _ => "T_ADDR"
  | T_DEREF _ => "T_DEREF" | T_ARRAY _ _ => "T_ARRAY" | T_ARRAY_TYPE _ _ => "T_ARRAY_TYPE" | T_DECL _ _ _ => "T_DECL"
  | T_TYPE_SPECIFIER _ _ => "T_TYPE_SPECIFIER" | T_DECL_COMPOUND _ _ _ _ => "T_DECL_COMPOUND" | T_FN _ _ _ _ => "T_FN" | T_BUILTIN _ => "T_BUILTIN"
  | T_FN_CALL _ _ => "T_FN_CALL" | T_INFIX _ _ _ => "T_INFIX" | T_LOOP_FOR _ _ _ _ => "T_LOOP_FOR" | T_LOOP_WHILE _ _ => "T_LOOP_WHILE"
  | T_RETURN _ _ => "T_RETURN" | T_BREAK => "T_BREAK" | T_REPL => "T_REPL" | T_ENUMERATOR _ _ => "T_ENUMERATOR" | T_VARIADIC => "T_VARIADIC"
  | T_LIVE_VAR _ _ _ _ => "T_LIVE_VAR" | T_LIVE_COMPOUND _ _ _ => "T_LIVE_COMPOUND" | CHAIN_HEAD _ => "CHAIN_HEAD" | E_INCOMP_TYPE _ => "E_INCOMP_TYPE"
  | CPP_INCLUDE _ => "CPP_INCLUDE" | D_T_VOID => "D_T_VOID" | T_EXT_FUNC _ => "T_EXT_FUNC" | D_T c => ctype_name c | D_T_PTR _ => "D_T_PTR"
  end.
(** [tree_description_string], /repo/src/tree.h:83-99: the description in c.lang (CLang.v). *)
Definition tree_description_string (t : tree) : text :=
  match find (fun d => match d with SpecLang.Node n _ _ | SpecLang.CNode n _ _ _ _ _ _ => String.eqb n (node_type t) | _ => false end) CLang.c_lang with
  | Some (SpecLang.Node _ f _ | SpecLang.CNode _ f _ _ _ _ _) => chars f
  | _ => chars "unknown"
  end.

(** [handle_pointer_type], /repo/src/inspect.c:30-38: what is printed for the stars, and the type without them. *)
Fixpoint handle_pointer_type (t : tree) : text * tree :=
  match t with
  | D_T_PTR e => let (out, t') := handle_pointer_type e in (tree_description_string t ++ chars " to a " ++ out, t')
  | _ => ([], t)
  end.

Section Inspect.
Variable E : env.
Variable H : host.
Local Open Scope m_scope.

(** [print_object_type], /repo/src/inspect.c:40-63, after the node of line 43 was made.  The type of a pointer may be missing, and a
    structure may have no name: both are followed without a test. *)
Definition print_object_type (x : string) (obj : tree) : M text :=
  s <- get ;;
  let (stars, type) := handle_pointer_type (match obj with T_LIVE_VAR type _ _ _ => type | _ => obj end) in
  name <- match view_comp s type with
          | Some c => match cd_id c with T_IDENTIFIER y => ret (chars y) | _ => ub end
          | None => match type with NULL => ub | _ => ret (tree_description_string type) end
          end ;;
  ret (chars x ++ chars " is a " ++ stars ++ name ++ chars "." ++ [newline]).

(** [pretty_print] as a step of the evaluator, /repo/src/inspect.c:10, 26. *)
Definition show (t : tree) : M text := s <- get ;; match pretty_print H s t with Some out => ret out | None => ub end.

(** [print_object_value], /repo/src/inspect.c:5-13. *)
Definition print_object_value (x : string) (obj : tree) : M text :=
  v <- show obj ;; ret (chars "value of " ++ chars x ++ chars " is " ++ v ++ [newline]).

(** [print_sizeof_object], /repo/src/inspect.c:15-28. *)
Definition print_sizeof_object (fuel : nat) (x : string) (obj : tree) : M text :=
  tick E ;;
  r <- evaluate_expr E fuel (T_SIZEOF obj) ;;
  v <- show r ;;
  ret (chars "sizeof(" ++ chars x ++ chars ") = " ++ v ++ chars " bytes." ++ [newline]).

(** [print_object_locus], /repo/src/inspect.c:65-70. *)
Definition print_object_locus (x : string) : M text :=
  s <- get ;;
  let (file, line_no) := h_place H s x in
  ret (chars x ++ chars " was declared at: " ++ file ++ chars ":" ++ print_integer line_no ++ [newline]).

(** [inspect] and [eval_inspect], /repo/src/inspect.c:72-105 and /repo/src/evaluate.c:1009-1016, with what is printed.  For the missing
    locus of arrays see [eval_inspect] in Eval.v. *)
Definition inspect (fuel : nat) (x : string) : M text :=
  obj <- resolve_identifier_global (T_IDENTIFIER x) ;;
  match obj with
  | NULL => ret (chars "Object not found" ++ [newline])
  | _ =>
      tick E ;;
      type <- print_object_type x obj ;;
      rest <- match obj with
              | T_LIVE_VAR _ _ is_array _ =>
                  value <- print_object_value x obj ;;
                  size <- print_sizeof_object fuel x obj ;;
                  place <- (if is_array then ub else print_object_locus x) ;;
                  ret (value ++ size ++ place)
              | T_FN _ _ _ _ | T_EXT_FUNC _ => print_object_locus x
              | _ => ret []
              end ;;
      ret (type ++ rest)
  end.
End Inspect.

(** * Scanning a line *)

(** How reading a text ends: at its end, or with exit(1) in the scanner (/repo/src/lex.m4:86-94). *)
Inductive scan_end := Finished (st : lexst) | ScanError.

(** The parser calls the scanner (Lexer.v, [yylex], /repo/src/lex.m4:137-258) for [l] from the state [st] and text [s]; it is then in the
    state [st'] before the text [s']. *)
Inductive reads (tn : text -> bool) : lexst -> text -> list token -> lexst -> text -> Prop :=
| reads_nil st s : reads tn st s [] st s
| reads_token st s t st1 s1 l st' s' : yylex REPL_T tn (S (List.length s)) st s = Token t st1 s1 -> reads tn st1 s1 l st' s' ->
    reads tn st s (t :: l) st' s'.
(** All tokens of the text, and how reading it ends; /repo/src/lex.m4:137-258. *)
Definition scans (tn : text -> bool) (st : lexst) (s : text) (l : list token) (e : scan_end) : Prop :=
  exists st' s', reads tn st s l st' s' /\
    match e with
    | Finished st2 => yylex REPL_T tn (S (List.length s')) st' s' = EndOfInput st2
    | ScanError => yylex REPL_T tn (S (List.length s')) st' s' = Error
    end.

(** * The state of the REPL *)

(** What lasts from line to line: the start condition and string buffer of the scanner (static variables of /repo/src/lex.m4, not reset by
    repl_scan_string, /repo/src/repl.c:377), the names of types (/repo/src/typename.c:4-11) and the evaluator. *)
Record session := mksession { se_lex : lexst; se_names : Typename.names; se_eval : state }.

(** [is_typename], called at /repo/src/lex.m4:193. *)
Definition is_type (se : session) (x : text) : bool := is_typename (string_of_list_ascii x) (se_names se).

(** The keyword that makes a declaration change the names of types, /repo/src/parser.m4:55-59. *)
Definition typedef_token : token := KW "TYPEDEF".

(** A typedef may be complete: the names of types may have changed while the tokens were read, /repo/src/parser.m4:622-630. *)
Definition changes_names (l : list token) : Prop := In typedef_token l /\ In (PUNCT ";") l.

(** What [replparse] does (/repo/src/repl.c:377-384): it accepts the line with the given statements, rejects it, or the process ends with
    exit(1).  [Outside]: not modelled. *)
Inductive parse_result := Accepted (ts : list tree) (se : session) | Rejected (se : session) | ParseExit | Outside.

(** [repl_scan_string] and [replparse], /repo/src/repl.c:377-384.  The identities of the new nodes come from the supply of the evaluator
    (no collection during parsing, /repo/src/repl.c:378).  Names declared by a typedef are known to the scanner from the declaration's
    semicolon on; modelled if it is the whole line.  Other lines on which a typedef is complete are [Outside].
    Over-approximation: a line that is rejected may have been read up to any point where the tokens so far have no continuation, or to its
    end; an error of the scanner may be met also if it is after such a point. *)
Inductive replparse (se : session) (line : text) : parse_result -> Prop :=
| rp_accept l st ts n :
    scans (is_type se) (se_lex se) line l (Finished st) -> ~ In typedef_token l ->
    parses REPL_T (fresh (se_eval se)) l (CHAIN_HEAD ts) n ->
    replparse se line (Accepted ts (mksession st (se_names se) (set_fresh (fun _ => n) (se_eval se))))
| rp_typedef l st k specs decls n :
    scans (is_type se) (se_lex se) line l (Finished st) -> In typedef_token l ->
    parses REPL_T (fresh (se_eval se)) l (CHAIN_HEAD [T_DECL k specs decls]) n ->
    replparse se line (Accepted [T_DECL k specs decls]
      (mksession st (maybe_add_typenames k specs decls (se_names se)) (set_fresh (fun _ => n) (se_eval se))))
| rp_reject l st rest :
    reads (is_type se) (se_lex se) line l st rest -> ~ changes_names l ->
    (forall l' n t m, ~ parses REPL_T n (l ++ l') t m) ->
    replparse se line (Rejected (mksession st (se_names se) (se_eval se)))
| rp_reject_end l st :
    scans (is_type se) (se_lex se) line l (Finished st) -> ~ changes_names l ->
    (forall n t m, ~ parses REPL_T n l t m) ->
    replparse se line (Rejected (mksession st (se_names se) (se_eval se)))
| rp_error l : scans (is_type se) (se_lex se) line l ScanError -> replparse se line ParseExit
| rp_outside l st rest :
    reads (is_type se) (se_lex se) line l st rest -> changes_names l ->
    (forall l0 l1, l = l0 ++ l1 -> ~ changes_names l0 -> exists l' n t m, parses REPL_T n (l0 ++ l') t m) ->
    (forall l' st' k specs decls n m, scans (is_type se) (se_lex se) line l' (Finished st') ->
       ~ parses REPL_T n l' (CHAIN_HEAD [T_DECL k specs decls]) m) ->
    replparse se line Outside.

(** What [repl_do_parse] and [repl_parse_line] return: a statement, NULL, or nothing because the process ends with exit(1).
    /repo/src/repl.c:372-431. *)
Inductive parsed := Statement (t : tree) (se : session) | NoStatement (se : session) | ParsedExit | ParsedOutside.
(** [repl_do_parse] after the parser has returned, /repo/src/repl.c:383-398. *)
Definition do_parse (r : parse_result) : parsed :=
  match r with
  | Accepted [] se => NoStatement se
  | Accepted [t] se => Statement t se
  | Accepted _ _ => ParsedExit
  | Rejected se => NoStatement se
  | ParseExit => ParsedExit
  | Outside => ParsedOutside
  end.

Section Loop.
Variable E : env.
Variable H : host.

(** [is_CPP_INCLUDE], /repo/src/tree.h:171-184. *)
Definition is_CPP_INCLUDE (t : tree) : bool := match t with CPP_INCLUDE _ => true | _ => false end.

(** [is_T_INSPECT], /repo/src/tree.h:171-184. *)
Definition is_T_INSPECT (t : tree) : bool := match t with T_INSPECT _ => true | _ => false end.

(** What run_cpp gives for the line, /repo/src/repl.c:341-343; Repl.v has the rest of [run_cpp_on_line]. *)
Definition cpp_output (se : session) (line : text) : text :=
  h_cpp H (cpp_file (map list_ascii_of_string (includes (se_eval se))) (Some line)).

(** [repl_parse_line], /repo/src/repl.c:400-431. *)
Inductive repl_parse_line (se : session) (line : text) : parsed -> Prop :=
| pl_first r : replparse se line r -> match do_parse r with Statement t _ => is_CPP_INCLUDE t = true | _ => True end ->
    repl_parse_line se line (do_parse r)
| pl_exit r t se1 : replparse se line r -> do_parse r = Statement t se1 -> is_CPP_INCLUDE t = false ->
    run_cpp_on_line (S (List.length (cpp_output se1 line))) (cpp_output se1 line) = Exit1 ->
    repl_parse_line se line ParsedExit
| pl_second r t se1 line' r' : replparse se line r -> do_parse r = Statement t se1 -> is_CPP_INCLUDE t = false ->
    run_cpp_on_line (S (List.length (cpp_output se1 line))) (cpp_output se1 line) = Line line' ->
    replparse se1 line' r' -> repl_parse_line se line (do_parse r').

(** What working on a line ends with: the next line is read, after [out] was printed; the process ends with exit(1) before anything is
    evaluated; or evaluation or printing does not come to its end. /repo/src/repl.c:457-500. *)
Inductive line_result := Continues (out : text) (se : session) | Quits | Ends (r : res tree) | NotModelled.

(** The names of types after the evaluation of [t]: reading headers changes those of the headers, /repo/src/evaluate.c:2572-2577; which they
    are is not modelled. *)
Definition names_after (t : tree) (n n' : Typename.names) : Prop :=
  if is_CPP_INCLUDE t then type_names n' = type_names n /\ in_include_file n' = in_include_file n else n' = n.

(** A round of the loop in [bic_repl], /repo/src/repl.c:465-484.  What the evaluated program or the scanner (of characters no rule matches)
    write themselves is not part of [out]; what is printed for an inspected name is (only lines of the REPL inspect names,
    /repo/src/parser.m4:1396-1401).  Lines typed at a nested REPL during the evaluation are in [e_repl] (Eval.v); they are taken to
    leave the scanner and the names of types unchanged. *)
Inductive repl_round (se : session) (line : text) : line_result -> Prop :=
| rr_nothing se' : repl_parse_line se line (NoStatement se') -> repl_round se line (Continues [] se')
| rr_exit : repl_parse_line se line ParsedExit -> repl_round se line Quits
| rr_outside : repl_parse_line se line ParsedOutside -> repl_round se line NotModelled
| rr_null t se' fuel s names : repl_parse_line se line (Statement t se') -> is_T_INSPECT t = false -> evaluate_expr E fuel t (se_eval se') = Ok NULL s ->
    names_after t (se_names se') names ->
    repl_round se line (Continues [] (mksession (se_lex se') names s))
| rr_value t se' fuel v s out names : repl_parse_line se line (Statement t se') -> is_T_INSPECT t = false -> evaluate_expr E fuel t (se_eval se') = Ok v s -> v <> NULL ->
    names_after t (se_names se') names -> pretty_print H s v = Some out ->
    repl_round se line (Continues (out ++ [newline]) (mksession (se_lex se') names s))
| rr_unprintable t se' fuel v s : repl_parse_line se line (Statement t se') -> is_T_INSPECT t = false -> evaluate_expr E fuel t (se_eval se') = Ok v s ->
    pretty_print H s v = None -> repl_round se line (Ends UB)
| rr_ends t se' fuel r : repl_parse_line se line (Statement t se') -> is_T_INSPECT t = false -> evaluate_expr E fuel t (se_eval se') = r ->
    r <> State.Fuel -> (forall v s, r <> Ok v s) -> repl_round se line (Ends r)
| rr_inspect x se' fuel out s : repl_parse_line se line (Statement (T_INSPECT (T_IDENTIFIER x)) se') ->
    inspect E H fuel x (se_eval se') = Ok out s -> repl_round se line (Continues out (mksession (se_lex se') (se_names se') s))
| rr_inspect_ends x se' fuel r : repl_parse_line se line (Statement (T_INSPECT (T_IDENTIFIER x)) se') ->
    bind (inspect E H fuel x) (fun _ => ret NULL) (se_eval se') = r -> r <> State.Fuel -> (forall v s, r <> Ok v s) -> repl_round se line (Ends r).

(** The lines typed one after the other, /repo/src/repl.c:464-484, with everything that is printed. *)
Inductive repl_rounds : session -> list text -> text -> session -> Prop :=
| rs_nil se : repl_rounds se [] [] se
| rs_cons se line out se1 lines outs se2 : repl_round se line (Continues out se1) -> repl_rounds se1 lines outs se2 ->
    repl_rounds se (line :: lines) (out ++ outs) se2.
End Loop.

(** The REPL before the first line: the scanner has not been used, the tables of names are initialised (/repo/src/main.c:149). *)
Definition session_start (s : state) : session := mksession lex_start (typename_init names_start) s.
