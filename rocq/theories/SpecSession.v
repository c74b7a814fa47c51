(** What is typed at the REPL and what it prints; used by C63 - C68. *)
From Coq Require Import ZArith List String Ascii Bool.
From Verif Require Import CInt Tree State Lexer Grammar Repl Session SpecRun SpecExpr SpecLexer SpecScan SpecSyntax.
Import ListNotations.
Local Open Scope string_scope.
Local Open Scope Z_scope.
Local Open Scope list_scope.

(** The decimal notation of a number: digits, the first not 0 unless it is the only one, and a minus sign before those of a negative
    number. *)
Definition decimal (v : Z) (out : list ascii) : Prop :=
  exists ds, numeral 10 ds (Z.abs v) /\ (forall l, ds = "0"%char :: l -> l = []) /\ out = (if v <? 0 then "-"%char :: ds else ds).

(** The integer expression that an expression of C is; None for expressions of other kinds. *)
Fixpoint int_exp (e : cexp) : option expr :=
  match e with
  | Num z => Some (Lit z)
  | Id x => Some (Var (string_of_list_ascii x))
  | Paren es => option_map Group (int_exps es)
  | Pre LNot a => option_map Not (int_exp a)
  | Pre OnesComp a => option_map Compl (int_exp a)
  | Infix o a b =>
      match int_exp a, int_exp b with
      | Some a, Some b => Some (match o with Arith op => Bin op a b | Compare op => Cmp op a b | LAnd => And a b | LOr => Or a b end)
      | _, _ => None
      end
  | SpecSyntax.Cond a es c =>
      match int_exp a, int_exps es, int_exp c with Some a, Some x, Some c => Some (SpecExpr.Cond a (Group x) c) | _, _, _ => None end
  | _ => None
  end
with int_exps (es : cexps) : option expr :=
  match es with
  | One e => int_exp e
  | More es e => match int_exps es, int_exp e with Some a, Some b => Some (Comma a b) | _, _ => None end
  end.

(** The preprocessor makes [line'] of [line]: its output for the file of the headers included so far and the line (/repo/src/repl.c:341-343)
    ends with the line [line']. *)
Definition preprocessed (H : host) (se : session) (line line' : list ascii) : Prop :=
  line' <> [] /\ ~ In newline line' /\
  exists before, (before = [] \/ exists b, before = b ++ [newline]) /\
    h_cpp H (List.concat (map (fun x => list_ascii_of_string x ++ [newline]) (includes (se_eval se))) ++ line) = before ++ line' ++ [newline].

(** The line is a text of the tokens [l], and so is what the preprocessor makes of it; the scanner is not inside a string, a comment or
    after the word struct. *)
Definition typed (H : host) (se : session) (l : list token) (line : list ascii) : Prop :=
  l_cond (se_lex se) = INITIAL /\ writes (is_type se) false l line /\
  exists line', preprocessed H se line line' /\ writes (is_type se) false l line'.

(** What the REPL does with the statement [t] in the session [se]: the value, if there is one, is printed with a line feed. *)
Inductive answers (E : env) (H : host) (se : session) (t : tree) : line_result -> Prop :=
| an_nothing s : runs E (se_eval se) t (Ok NULL s) -> answers E H se t (Continues [] (mksession (se_lex se) (se_names se) s))
| an_value v s out : runs E (se_eval se) t (Ok v s) -> v <> NULL -> pretty_print H s v = Some out ->
    answers E H se t (Continues (out ++ [newline]) (mksession (se_lex se) (se_names se) s))
| an_unprintable v s : runs E (se_eval se) t (Ok v s) -> pretty_print H s v = None -> answers E H se t (Ends UB)
| an_ends r : runs E (se_eval se) t r -> SpecRun.stops r -> answers E H se t (Ends r).

(** The specifiers of a declaration one by one. *)
Fixpoint spec_list (ss : cspecs) : list cspec := match ss with S1 s => [s] | SMore ss s => spec_list ss ++ [s] end.
(** A specifier that is a keyword of C. *)
Definition word (s : cspec) : Prop :=
  match s with SStore _ => True | SBase (BName _ | BTag _ _ | BEnum _) => False | SBase _ => True | _ => False end.

(** The line is a text of the tokens [l] and declares the type [x]; what the preprocessor makes of it is a text of the tokens [l'] when [x]
    is the name of a type. *)
Definition typed_typedef (H : host) (se : session) (x : list ascii) (l l' : list token) (line : list ascii) : Prop :=
  l_cond (se_lex se) = INITIAL /\ writes (is_type se) false l line /\
  exists line', preprocessed H se line line' /\
    writes (fun y => is_type se y || String.eqb (string_of_list_ascii y) (string_of_list_ascii x)) false l' line'.
