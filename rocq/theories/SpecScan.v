(** Texts of token sequences: how each token is written, what may follow it directly, and where white space may be. *)
From Coq Require Import ZArith List String Ascii Bool.
From Verif Require Import Lexer SpecLexer.
Import ListNotations.
Local Open Scope string_scope.
Local Open Scope list_scope.

(** Operators and punctuation: text, token, and the characters that would make it a different token if they followed. *)
Definition symbols : list (string * token * string) :=
  [("==", KW "EQUATE", ""); ("!=", KW "NOT_EQUATE", ""); ("<=", KW "LESS_OR_EQUAL", ""); (">=", KW "GREATER_OR_EQUAL", "");
   ("+=", KW "ADD_ASSIGN", ""); ("-=", KW "SUB_ASSIGN", ""); ("/=", KW "DIV_ASSIGN", ""); ("<<=", KW "LSHIFT_ASSIGN", "");
   (">>=", KW "RSHIFT_ASSIGN", ""); ("^=", KW "XOR_ASSIGN", ""); ("<<", KW "SHIFT_LEFT", "="); (">>", KW "SHIFT_RIGHT", "=");
   ("++", KW "INC", ""); ("--", KW "DEC", ""); ("->", KW "PTR_ACCESS", ""); ("&&", KW "BOOL_OP_AND", ""); ("||", KW "BOOL_OP_OR", "");
   ("...", KW "ELLIPSIS", ""); ("<REPL>", KW "REPL", "");
   ("=", PUNCT "=", "="); ("(", PUNCT "(", ""); (")", PUNCT ")", ""); (";", PUNCT ";", ""); (",", PUNCT ",", ""); (":", PUNCT ":", "");
   ("[", PUNCT "[", ""); ("]", PUNCT "]", ""); (".", PUNCT ".", "."); ("<", PUNCT "<", "<=R"); (">", PUNCT ">", ">=");
   ("!", PUNCT "!", "="); ("+", PUNCT "+", "+="); ("-", PUNCT "-", "-=>0123456789"); ("*", PUNCT "*", ""); ("/", PUNCT "/", "=");
   ("%", PUNCT "%", ""); ("{", PUNCT "{", ""); ("}", PUNCT "}", ""); ("&", PUNCT "&", "&"); ("|", PUNCT "|", "|"); ("?", PUNCT "?", "");
   ("^", PUNCT "^", "="); ("~", PUNCT "~", "")].
Definition not_next (bad : string) (rest : list ascii) : Prop :=
  match rest with c :: _ => ~ In c (list_ascii_of_string bad) | [] => True end.

(** The token is written as the text, and can be followed directly by [rest]; [tn] are the names of types. *)
Inductive spelled (tn : list ascii -> bool) : token -> list ascii -> list ascii -> Prop :=
| sp_symbol w t bad rest : In (w, t, bad) symbols -> not_next bad rest -> spelled tn t (list_ascii_of_string w) rest
| sp_keyword x k rest : name x -> entry x = Some (Some k) -> name_ends rest -> spelled tn (KW k) x rest
| sp_name x rest : name x -> ~ special x -> entry x = None -> tn x = false -> name_ends rest -> spelled tn (IDENTIFIER x) x rest
| sp_type x rest : name x -> ~ special x -> entry x = None -> tn x = true -> name_ends rest -> spelled tn (TYPE_NAME x) x rest
| sp_decimal ds v rest : numeral 10 ds v -> number_ends rest -> name_ends rest -> spelled tn (INTEGER v) ds rest
| sp_negative ds v rest : numeral 10 ds v -> number_ends rest -> name_ends rest -> spelled tn (INTEGER (- v)) ("-"%char :: ds) rest
| sp_hex hs v rest : numeral 16 hs v -> name_ends rest -> spelled tn (INTEGER v) ("0"%char :: "x"%char :: hs) rest
| sp_char ps z rest : Forall part_ok ps -> ps <> [] -> Forall (fun q => match q with Plain c | Escape c => c <> "000"%char end) ps -> char_value ps = Some z ->
    spelled tn (INTEGER z) (quoted ps) rest
| sp_float sign a b rest : sign = [] \/ sign = ["-"%char] -> a <> [] -> b <> [] -> Forall decimal_digit a -> Forall decimal_digit b -> name_ends rest ->
    spelled tn (FLOAT_CST (sign ++ a ++ "."%char :: b)) (sign ++ a ++ "."%char :: b) rest
| sp_string b o rest : decodes b o -> spelled tn (CONST_STRING o) (dq :: b ++ [dq]) rest.

Definition white : list ascii := [" "%char; tab; nl; cr].
Definition tag_word (t : token) : bool := match t with KW k => (String.eqb k "STRUCT" || String.eqb k "UNION")%bool | _ => false end.

(** A text of the tokens.  [tag]: the word struct or union was just before.  Ignored words (const, volatile, ...) are allowed. *)
Inductive writes (tn : list ascii -> bool) : bool -> list token -> list ascii -> Prop :=
| wr_end tag : writes tn tag [] []
| wr_space tag c l s : In c white -> writes tn tag l s -> writes tn tag l (c :: s)
| wr_ignored x l s : name x -> entry x = Some None -> name_ends s -> writes tn false l s -> writes tn false l (x ++ s)
| wr_token t u l s : spelled tn t u s -> writes tn (tag_word t) l s -> writes tn false (t :: l) (u ++ s)
| wr_tag x l s : name x -> name_ends s -> writes tn false l s -> writes tn true (IDENTIFIER x :: l) (x ++ s)
| wr_brace l s : writes tn false l s -> writes tn true (PUNCT "{" :: l) ("{"%char :: s).

(** The two parentheses before [rest] are the last two in a row on their line. *)
Definition last_close (rest : list ascii) : Prop :=
  forall w w' v, rest = w ++ w' -> w <> [] -> ~ In nl w -> ")"%char :: ")"%char :: w <> v ++ [")"%char; ")"%char].
