(** Model of the scanner src/lex.m4, as flex executes it: regular expressions, longest match, first
    rule on ties, start conditions.  Characters are bytes ([ascii]). *)
From Coq Require Import ZArith List String Ascii Bool DecimalString.
Import ListNotations.
Local Open Scope string_scope.
Local Open Scope list_scope.

(** * Flex patterns *)

(** The pattern operators used in src/lex.m4:130-258. *)
Inductive re :=
| Void
| Eps
| Cls (f : ascii -> bool)
| Cat (a b : re)
| Alt (a b : re)
| Star (a : re).

(** The pattern matches the empty text (flex semantics, no counterpart in the sources).
    Executed for the patterns of /repo/src/lex.m4:130-258. *)
Fixpoint nullable (r : re) : bool :=
  match r with
  | Void | Cls _ => false
  | Eps | Star _ => true
  | Cat a b => nullable a && nullable b
  | Alt a b => nullable a || nullable b
  end.

(** Concatenation and alternative, simplified (no counterpart in the sources).
    For the patterns of /repo/src/lex.m4:130-258. *)
Definition cat (a b : re) : re := match a with Void => Void | Eps => b | _ => Cat a b end.
(** See [cat]. For the patterns of /repo/src/lex.m4:130-258. *)
Definition alt (a b : re) : re := match a, b with Void, _ => b | _, Void => a | _, _ => Alt a b end.

(** What must follow the character [c] (flex semantics, no counterpart in the sources).
    For the patterns of /repo/src/lex.m4:130-258. *)
Fixpoint deriv (c : ascii) (r : re) : re :=
  match r with
  | Void | Eps => Void
  | Cls f => if f c then Eps else Void
  | Cat a b => if nullable a then alt (cat (deriv c a) b) (deriv c b) else cat (deriv c a) b
  | Alt a b => alt (deriv c a) (deriv c b)
  | Star a => cat (deriv c a) (Star a)
  end.

(** Length of the longest prefix of [s] that matches (flex semantics). For the patterns of /repo/src/lex.m4:130-258. *)
Fixpoint longest (r : re) (s : list ascii) : option nat :=
  let here := if nullable r then Some O else None in
  match s with
  | [] => here
  | c :: s => match r with
              | Void => None
              | _ => match longest (deriv c r) s with Some n => Some (S n) | None => here end
              end
  end.

(** A quoted text, as in src/lex.m4:139-258. *)
Fixpoint lit (s : string) : re :=
  match s with
  | EmptyString => Eps
  | String c EmptyString => Cls (Ascii.eqb c)
  | String c s => Cat (Cls (Ascii.eqb c)) (lit s)
  end.
(** [r+], [r?], as in src/lex.m4:139-258. *)
Definition plus (r : re) : re := Cat r (Star r).
(** See [plus]. /repo/src/lex.m4:139-258. *)
Definition opt (r : re) : re := Alt r Eps.
(** A character range of src/lex.m4:130-133. *)
Definition between (a b : ascii) (c : ascii) : bool := (nat_of_ascii a <=? nat_of_ascii c)%nat && (nat_of_ascii c <=? nat_of_ascii b)%nat.
(** One of the characters of a text. A character class in /repo/src/lex.m4:139-258. *)
Definition one_of (s : string) (c : ascii) : bool := existsb (Ascii.eqb c) (list_ascii_of_string s).

(** Newline, and the characters that cannot be written in a Coq string. In /repo/src/lex.m4:139-258. *)
Definition nl : ascii := "010"%char.
(** Tab. In /repo/src/lex.m4:132. *)
Definition tab : ascii := "009"%char.
(** Carriage return. In /repo/src/lex.m4:96-120. *)
Definition cr : ascii := "013"%char.
(** Backslash. In /repo/src/lex.m4:96-120. *)
Definition bs : ascii := "092"%char.
(** Double quote. In /repo/src/lex.m4:202. *)
Definition dq : ascii := "034"%char.
(** Single quote. In /repo/src/lex.m4:96-120. *)
Definition sq : ascii := "039"%char.

(** [L], src/lex.m4:130. *)
Definition is_L (c : ascii) : bool := between "a" "z" c || between "A" "Z" c || Ascii.eqb "_" c.
(** [D], src/lex.m4:131. *)
Definition is_D (c : ascii) : bool := between "0" "9" c.
(** [X], src/lex.m4:133. *)
Definition is_X (c : ascii) : bool := between "0" "9" c || between "A" "F" c || between "a" "f" c.
(** [.], any character but newline. In /repo/src/lex.m4:139-258. *)
Definition is_any (c : ascii) : bool := negb (Ascii.eqb nl c).
(** [[ \t]]. In /repo/src/lex.m4:139-258. *)
Definition is_blank (c : ascii) : bool := Ascii.eqb " " c || Ascii.eqb tab c.

(** * Tokens and actions *)

(** The tokens of src/parser.m4; [KW] are those without a value, [PUNCT] the single characters.
    /repo/src/parser.m4:84-93. *)
Inductive token :=
| KW (name : string)
| PUNCT (c : ascii)
| IDENTIFIER (x : list ascii)
| TYPE_NAME (x : list ascii)
| INTEGER (z : Z)
| FLOAT_CST (text : list ascii)
| CONST_STRING (s : list ascii)
| C_PRE_INC (text : list ascii).

(** Start conditions, src/lex.m4:135-136 (both exclusive). *)
Inductive cond := INITIAL | str_lit | compound_start_cond.

(** The two generated scanners, src/lex.m4:186-191. *)
Inductive target := REPL_T | CSCRIPT_T.

(** Scanner state: start condition and [sl_buf] (src/lex.m4:27); the value of [sl_buf] is the C
    string it holds.  Line numbers and the file name are not modelled. *)
Record lexst := mklex { l_cond : cond; l_buf : list ascii }.

(** What an action does: return a token, go on, or [lex_err] (src/lex.m4:86-94). *)
Inductive act := Emit (t : token) (s : lexst) | Skip (s : lexst) | LexErr.

(** The C string in a buffer: up to the first NUL. As strdup and strcat read it, /repo/src/lex.m4:70-84, 208. *)
Fixpoint cstr (s : list ascii) : list ascii :=
  match s with
  | [] => []
  | c :: s => if Ascii.eqb c "000" then [] else c :: cstr s
  end.

(** The value of a character as [signed char], src/lex.m4:96-120 ([char] is signed). *)
Definition schar (c : ascii) : Z :=
  let n := Z.of_nat (nat_of_ascii c) in if (n <? 128)%Z then n else (n - 256)%Z.

(** [lex_char], src/lex.m4:96-120; None is [lex_err].  (In the m4 source line 107 reads [!= ''\\'] since m4 removes
    the quotes that line 105 opens.) *)
Definition lex_char (text : list ascii) : option Z :=
  match cstr text with
  | [a; b; c] | [a; b; c; _] =>
      if negb (Ascii.eqb a sq) then None
      else if negb (Ascii.eqb b bs) then Some (schar b)
      else if Ascii.eqb c "n" then Some 10%Z
      else if Ascii.eqb c bs then Some 92%Z
      else if Ascii.eqb c "r" then Some 13%Z
      else None
  | _ => None
  end.

(** Value of a digit of mpz_set_str and strtol (used at src/lex.m4:198, 200, 206). *)
Definition digit_value (c : ascii) : Z :=
  let n := Z.of_nat (nat_of_ascii c) in
  if between "0" "9" c then (n - 48)%Z else if between "A" "F" c then (n - 55)%Z else (n - 87)%Z.
(** The number written in base [b] by a text of digits (GMP's mpz_set_str). /repo/src/lex.m4:198, 200, 206. *)
Definition digits_value (b : Z) (s : list ascii) : Z := fold_left (fun v c => (b * v + digit_value c)%Z) s 0%Z.

(** [mpz_init_set_str(x, text, 10)], src/lex.m4:198. *)
Definition mpz_decimal (s : list ascii) : Z :=
  match s with
  | c :: s' => if Ascii.eqb c "-" then (- digits_value 10 s')%Z else digits_value 10 s
  | [] => 0%Z
  end.
(** [mpz_init_set_str(x, text, 0)] for a text starting with 0x, src/lex.m4:200. *)
Definition mpz_hex (s : list ascii) : Z := digits_value 16 (skipn 2 s).

(** [(char)strtol(text, 0, 8)] for octal digits, src/lex.m4:206: strtol saturates. *)
Definition octal_char (s : list ascii) : ascii :=
  ascii_of_N (Z.to_N (Z.min (digits_value 8 s) (2 ^ 63 - 1) mod 256)).

(** [sl_append_str], src/lex.m4:70-75 with [concat_strings], src/util.c:5-15. *)
Definition sl_append_str (s : list ascii) (st : lexst) : lexst := mklex (l_cond st) (l_buf st ++ cstr s).
(** [sl_append_char], src/lex.m4:77-84. *)
Definition sl_append_char (c : ascii) (st : lexst) : lexst := sl_append_str [c] st.
(** [BEGIN c]. /repo/src/lex.m4:174-181, 202, 208. *)
Definition begin (c : cond) (st : lexst) : lexst := mklex c (l_buf st).

(** A rule: start conditions, pattern, action on the matched text. One line of /repo/src/lex.m4:139-258. *)
Record rule := mkrule { r_conds : list cond; r_re : re; r_act : list ascii -> lexst -> act }.

Section Rules.
Variable T : target.
(** [is_typename], src/typename.c:57-72; the subject of Typename.v. *)
Variable is_typename : list ascii -> bool.

(** A rule that returns a token without value. One line of /repo/src/lex.m4:139-258. *)
Definition keyword (s name : string) : rule := mkrule [INITIAL] (lit s) (fun _ st => Emit (KW name) st).
(** A rule that returns its single character. One line of /repo/src/lex.m4:139-258. *)
Definition punct (c : ascii) : rule := mkrule [INITIAL] (Cls (Ascii.eqb c)) (fun _ st => Emit (PUNCT c) st).
(** A rule with an empty action. One line of /repo/src/lex.m4:139-258. *)
Definition ignore (r : re) : rule := mkrule [INITIAL] r (fun _ st => Skip st).

(** src/lex.m4:192-196. *)
Definition ident_re : re := Cat (Cls is_L) (Star (Alt (Cls is_L) (Cls is_D))).
(** src/lex.m4:198. *)
Definition int_re : re := Cat (opt (Cls (Ascii.eqb "-"))) (plus (Cls is_D)).
(** src/lex.m4:199. *)
Definition float_re : re := Cat (opt (Cls (Ascii.eqb "-"))) (Cat (plus (Cls is_D)) (Cat (Cls (Ascii.eqb ".")) (plus (Cls is_D)))).
(** src/lex.m4:200. *)
Definition hex_re : re := Cat (Cls (Ascii.eqb "0")) (Cat (Cls (Ascii.eqb "x")) (plus (Cls is_X))).
(** src/lex.m4:201. *)
Definition char_re : re :=
  Cat (opt (Cls (Ascii.eqb "L"))) (Cat (Cls (Ascii.eqb sq))
    (Cat (plus (Alt (Cat (Cls (Ascii.eqb bs)) (Cls is_any))
                    (Cls (fun c => negb (Ascii.eqb c bs || Ascii.eqb c sq || Ascii.eqb c nl)))))
         (Cls (Ascii.eqb sq)))).

(** The rules that only one of the two scanners has, src/lex.m4:186-191.  The action of the line marker
    rule only sets the line number and file. *)
Definition target_rules : list rule :=
  match T with
  | REPL_T => [mkrule [INITIAL] (Cat (lit "#include") (Cat (Star (Cls is_blank)) (Cat (Cls (Ascii.eqb "<"))
                (Cat (plus (Cls (fun c => is_L c || is_D c || one_of "./" c))) (Cls (Ascii.eqb ">"))))))
                (fun text st => Emit (C_PRE_INC text) st)]
  | CSCRIPT_T => [ignore (Cat (Cls (Ascii.eqb "#")) (Cat (Star (Cls is_blank)) (Cat (plus (Cls is_D)) (Cat (Star (Cls is_blank))
                (Cat (Cls (Ascii.eqb dq)) (Cat (plus (Cls (fun c => is_L c || is_D c || one_of "-./<> " c)))
                (Cat (Cls (Ascii.eqb dq)) (Star (Cls (one_of " 1234")))))))))) ]
  end.

(** src/lex.m4:139-258, in order. *)
Definition rules : list rule :=
  [ignore (Cat (lit "__attribute__") (Cat (Star (Cls is_blank)) (Cat (lit "((") (Cat (Star (Cls is_any)) (lit "))")))));
   ignore (lit "_Nullable"); ignore (lit "_Nonnull"); ignore (Cat (opt (lit "__")) (lit "restrict"));
   ignore (Cat (lit "__asm") (Cat (opt (lit "__")) (Cat (Star (Cls is_blank)) (Cat (lit "(") (Cat (Star (Cls is_any)) (lit ")"))))));
   ignore (lit "__extension__"); ignore (lit "volatile");
   ignore (Cat (opt (lit "__")) (Cat (lit "inline") (opt (lit "__"))));
   keyword "auto" "AUTO"; keyword "break" "BREAK"; keyword "case" "CASE"; keyword "char" "CHAR";
   keyword "<REPL>" "REPL"; ignore (lit "const"); keyword "continue" "CONTINUE"; keyword "default" "DEFAULT";
   keyword "do" "DO"; keyword "double" "DOUBLE"; keyword "else" "ELSE"; keyword "enum" "ENUM";
   keyword "extern" "EXTERN"; keyword "float" "FLOAT"; keyword "for" "FOR"; keyword "goto" "GOTO";
   keyword "if" "IF"; keyword "int" "INT"; keyword "_Bool" "BOOL"; keyword "long" "LONG";
   keyword "register" "REGISTER"; keyword "return" "RETURN"; keyword "short" "SHORT"; keyword "signed" "SIGNED";
   keyword "sizeof" "SIZEOF"; keyword "static" "STATIC";
   mkrule [INITIAL] (lit "struct") (fun _ st => Emit (KW "STRUCT") (begin compound_start_cond st));
   mkrule [compound_start_cond] ident_re (fun text st => Emit (IDENTIFIER text) (begin INITIAL st));
   mkrule [compound_start_cond] (lit "{") (fun _ st => Emit (PUNCT "{") (begin INITIAL st));
   keyword "switch" "SWITCH"; keyword "typedef" "TYPEDEF";
   mkrule [INITIAL] (lit "union") (fun _ st => Emit (KW "UNION") (begin compound_start_cond st));
   keyword "unsigned" "UNSIGNED"; keyword "void" "VOID"; keyword "while" "WHILE"] ++
  target_rules ++
  [mkrule [INITIAL] ident_re (fun text st => Emit (if is_typename text then TYPE_NAME text else IDENTIFIER text) st);
   mkrule [INITIAL] int_re (fun text st => Emit (INTEGER (mpz_decimal text)) st);
   mkrule [INITIAL] float_re (fun text st => Emit (FLOAT_CST text) st);
   mkrule [INITIAL] hex_re (fun text st => Emit (INTEGER (mpz_hex text)) st);
   mkrule [INITIAL] char_re (fun text st => match lex_char text with Some z => Emit (INTEGER z) st | None => LexErr end);
   mkrule [INITIAL] (Cls (Ascii.eqb dq)) (fun _ st => Skip (mklex str_lit []));
   mkrule [str_lit] (Star (Cls (fun c => negb (Ascii.eqb c bs || Ascii.eqb c dq || Ascii.eqb c nl))))
     (fun text st => Skip (sl_append_str text st));
   mkrule [str_lit] (Cat (Cls (Ascii.eqb bs)) (Cls (Ascii.eqb "n"))) (fun _ st => Skip (sl_append_char nl st));
   mkrule [str_lit] (Cat (Cls (Ascii.eqb bs)) (Cls (Ascii.eqb "t"))) (fun _ st => Skip (sl_append_char tab st));
   mkrule [str_lit] (Cat (Cls (Ascii.eqb bs)) (Star (Cls (between "0" "7"))))
     (fun text st => Skip (sl_append_char (octal_char (skipn 1 text)) st));
   mkrule [str_lit] (Cat (Cls (Ascii.eqb bs)) (Cls (fun c => Ascii.eqb c bs || Ascii.eqb c dq)))
     (fun text st => Skip (sl_append_char (nth 1 text "000"%char) st));
   mkrule [str_lit] (Cls (Ascii.eqb dq)) (fun _ st => Emit (CONST_STRING (l_buf st)) (begin INITIAL st));
   mkrule [str_lit] (Cat (Cls (Ascii.eqb bs)) (Cls is_any)) (fun _ _ => LexErr);
   mkrule [str_lit] (Cls (Ascii.eqb nl)) (fun _ _ => LexErr);
   mkrule [INITIAL; compound_start_cond] (Cls (fun c => Ascii.eqb c " " || Ascii.eqb c tab || Ascii.eqb c cr)) (fun _ st => Skip st);
   mkrule [INITIAL; compound_start_cond] (Cls (Ascii.eqb nl)) (fun _ st => Skip st);
   keyword "..." "ELLIPSIS"; keyword "==" "EQUATE"; keyword "!=" "NOT_EQUATE"; punct "="; punct "("; punct ")"; punct ";";
   punct ","; punct sq; punct ":"; punct "["; punct "]"; punct "."; keyword "<=" "LESS_OR_EQUAL"; keyword ">=" "GREATER_OR_EQUAL";
   keyword "+=" "ADD_ASSIGN"; keyword "-=" "SUB_ASSIGN"; keyword "/=" "DIV_ASSIGN"; keyword "<<=" "LSHIFT_ASSIGN";
   keyword ">>=" "RSHIFT_ASSIGN"; keyword "^=" "XOR_ASSIGN"; punct "<"; punct ">"; punct "!"; punct "+"; punct "-"; punct "*";
   punct "/"; punct "%"; punct "{"; punct "}"; punct "&"; punct "|"; punct "?"; punct "^"; punct "~";
   keyword "<<" "SHIFT_LEFT"; keyword ">>" "SHIFT_RIGHT"; keyword "++" "INC"; keyword "--" "DEC"; keyword "->" "PTR_ACCESS";
   keyword "&&" "BOOL_OP_AND"; keyword "||" "BOOL_OP_OR"].

(** The rule flex chooses, with the length of its match: the longest match of at least one
    character, the first rule on ties. Generated by flex from /repo/src/lex.m4:139-258. *)
Fixpoint choose (rs : list rule) (s : list ascii) : option (rule * nat) :=
  match rs with
  | [] => None
  | r :: rs =>
      match longest (r_re r) s with
      | Some (S n) => match choose rs s with
                      | Some (r', m) => if (S n <? m)%nat then Some (r', m) else Some (r, S n)
                      | None => Some (r, S n)
                      end
      | _ => choose rs s
      end
  end.

(** The rules active in a start condition. The start conditions of /repo/src/lex.m4:135-136. *)
Definition active (c : cond) : list rule :=
  filter (fun r => existsb (fun c' => match c, c' with
    | INITIAL, INITIAL | str_lit, str_lit | compound_start_cond, compound_start_cond => true
    | _, _ => false end) (r_conds r)) rules.

(** Result of [yylex]. Of the function flex generates from /repo/src/lex.m4. *)
Inductive lexres := Token (t : token) (st : lexst) (rest : list ascii) | EndOfInput (st : lexst) | Error | LexFuel.

(** [yylex]: one match after the other until an action returns.  A character no rule
    matches is copied to the output (flex's default rule). The function flex generates from /repo/src/lex.m4:139-258. *)
Fixpoint yylex (fuel : nat) (st : lexst) (s : list ascii) : lexres :=
  match fuel, s with
  | _, [] => EndOfInput st
  | O, _ => LexFuel
  | S fuel, c :: s' =>
      match choose (active (l_cond st)) s with
      | None => yylex fuel st s'
      | Some (r, n) =>
          match r_act r (firstn n s) st with
          | Emit t st' => Token t st' (skipn n s)
          | Skip st' => yylex fuel st' (skipn n s)
          | LexErr => Error
          end
      end
  end.

(** All tokens of a text; None if the scanner stops with an error (or, never, runs out of fuel).
    The calls made by the parser generated from /repo/src/parser.m4. *)
Fixpoint tokens (fuel : nat) (st : lexst) (s : list ascii) : option (list token) :=
  match fuel with
  | O => None
  | S fuel' =>
      match yylex fuel st s with
      | Token t st' rest => match tokens fuel' st' rest with Some l => Some (t :: l) | None => None end
      | EndOfInput _ => Some []
      | Error | LexFuel => None
      end
  end.

End Rules.

(** The scanner at the start. The initial values of /repo/src/lex.m4:27 and of flex's start condition. *)
Definition lex_start : lexst := mklex INITIAL [].

(** [gmp_printf("%Zd", x)], src/pretty-printer.c:67-69. *)
Definition print_integer (z : Z) : list ascii := list_ascii_of_string (NilZero.string_of_int (Z.to_int z)).
