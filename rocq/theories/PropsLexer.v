(** C37 - C39, C53, C54: literals and names (src/lex.m4).  [T] is the scanner (REPL or script), [tn] decides which names are type
    names; [yylex fuel st s] is one call of the scanner on the text [s]. *)
From Coq Require Import ZArith List String Ascii Bool Lia.
From Verif Require Import Lexer SpecLexer LexerFacts LexerFacts2 LexerFacts3.
Import ListNotations.
Local Open Scope string_scope.
Local Open Scope list_scope.

(** ** C37: integer literals *)

(** A sequence of decimal digits of any length is read as the number it denotes in base ten (also with
    leading zeros); nothing else of the text is consumed. *)
Theorem C37_decimal : forall T tn fuel st ds v rest, l_cond st = INITIAL ->
  numeral 10 ds v -> number_ends rest -> ~ (ds = ["0"%char] /\ hex_follows rest) ->
  yylex T tn (S fuel) st (ds ++ rest) = Token (INTEGER v) st rest.
Proof. exact lex_decimal. Qed.
Print Assumptions C37_decimal.

Theorem C37_negative : forall T tn fuel st ds v rest, l_cond st = INITIAL ->
  numeral 10 ds v -> number_ends rest ->
  yylex T tn (S fuel) st ("-"%char :: ds ++ rest) = Token (INTEGER (- v)) st rest.
Proof. exact lex_negative. Qed.
Print Assumptions C37_negative.

Theorem C37_hexadecimal : forall T tn fuel st hs v rest, l_cond st = INITIAL ->
  numeral 16 hs v -> match rest with c :: _ => ~ hex_digit c | [] => True end ->
  yylex T tn (S fuel) st ("0"%char :: "x"%char :: hs ++ rest) = Token (INTEGER v) st rest.
Proof. exact lex_hex. Qed.
Print Assumptions C37_hexadecimal.

(** The text printed for any integer is read back as that integer. *)
Theorem C37_round_trip : forall T tn fuel st z rest, l_cond st = INITIAL ->
  number_ends rest -> ~ hex_follows rest ->
  yylex T tn (S fuel) st (print_integer z ++ rest) = Token (INTEGER z) st rest.
Proof. exact lex_printed. Qed.
Print Assumptions C37_round_trip.

(** [010;] is ten, [0xFf)] is 255, and printed numbers may be followed by a newline. *)
Example C37_nontrivial :
  numeral 10 (list_ascii_of_string "010") 10 /\ number_ends [";"%char] /\
  numeral 16 (list_ascii_of_string "Ff") 255 /\
  number_ends [nl] /\ ~ hex_follows [nl] /\
  print_integer (-120) = list_ascii_of_string "-120" /\
  number_ends (list_ascii_of_string ".x") /\ ~ number_ends (list_ascii_of_string ".5") /\
  hex_follows (list_ascii_of_string "xA").
Proof.
  assert (Hd : ~ decimal_digit ";") by (rewrite decimal_digit_iff; discriminate).
  split; [apply (numeral_intro 10 is_D D_digit_is); [discriminate|reflexivity]|].
  split; [split; [exact Hd|discriminate]|].
  split; [apply (numeral_intro 16 is_X X_digit_is); [discriminate|reflexivity]|].
  split; [split; [rewrite decimal_digit_iff; discriminate|discriminate]|].
  split; [intros (d & r & H & _); discriminate H|]. split; [reflexivity|].
  split; [split; [rewrite decimal_digit_iff; discriminate|intros _; cbn; rewrite decimal_digit_iff; discriminate]|].
  split; [intros [_ H]; apply (H eq_refl), decimal_digit_iff; reflexivity|].
  exists "A"%char, []. split; [reflexivity|apply hex_digit_iff; reflexivity].
Qed.

(** ** C38: string literals *)

(** A string literal is read as the characters its text stands for, up to the closing quote. *)
Theorem C38_decodes : forall T tn fuel st b o rest, l_cond st = INITIAL -> decodes b o -> (List.length b + 2 <= fuel)%nat ->
  yylex T tn fuel st (dq :: b ++ dq :: rest) = Token (CONST_STRING o) (mklex INITIAL o) rest.
Proof. exact lex_string. Qed.
Print Assumptions C38_decodes.

(** A newline in a string, or another escape, is an error. *)
Theorem C38_newline : forall T tn fuel st b o rest, l_cond st = INITIAL -> decodes b o -> (List.length b + 2 <= fuel)%nat ->
  yylex T tn fuel st (dq :: b ++ nl :: rest) = Error.
Proof. exact lex_string_newline. Qed.
Print Assumptions C38_newline.

Theorem C38_other_escape : forall T tn fuel st b o c rest, l_cond st = INITIAL -> decodes b o -> (List.length b + 3 <= fuel)%nat ->
  c <> "n"%char -> c <> "t"%char -> c <> bs -> c <> dq -> ~ octal_digit c ->
  yylex T tn fuel st (dq :: b ++ bs :: c :: rest) = Error.
Proof. exact lex_string_escape. Qed.
Print Assumptions C38_other_escape.

(** Every string without NUL can be written. *)
Theorem C38_every_string : forall s, Forall (fun c => c <> "000"%char) s -> exists b, decodes b s.
Proof. intros s H. exists (encode s). exact (encode_decodes s H). Qed.
Print Assumptions C38_every_string.

(** What a text stands for is unique. *)
Theorem C38_unique : forall b o o', decodes b o -> decodes b o' -> o = o'.
Proof.
  intros b o o' H H'.
  pose proof (lex_string CSCRIPT_T (fun _ => false) (List.length b + 2) lex_start b o [] eq_refl H (le_n _)) as E.
  rewrite (lex_string CSCRIPT_T (fun _ => false) (List.length b + 2) lex_start b o' [] eq_refl H' (le_n _)) in E.
  injection E as E. congruence.
Qed.
Print Assumptions C38_unique.

(** The text a, \t, b, \101, \0, escaped quote stands for a, tab, b, A and a quote: the NUL is lost. *)
Example C38_nontrivial :
  decodes (list_ascii_of_string "a\tb\101\0\""") ["a"%char; tab; "b"%char; "A"%char; dq].
Proof.
  cbn [list_ascii_of_string]. repeat (constructor; [repeat split; discriminate|] || constructor).
  change (decodes (bs :: list_ascii_of_string "101" ++ list_ascii_of_string "\0\""") (octal_byte 65 ++ (octal_byte 0 ++ [dq]))).
  apply dec_octal; [apply (numeral_intro 8 _ O_digit_is); [discriminate|reflexivity]|cbn; rewrite octal_digit_iff; discriminate|].
  change (decodes (bs :: list_ascii_of_string "0" ++ list_ascii_of_string "\""") (octal_byte 0 ++ [dq])).
  apply dec_octal; [apply (numeral_intro 8 _ O_digit_is); [discriminate|reflexivity]|cbn; rewrite octal_digit_iff; discriminate|].
  constructor. constructor.
Qed.

(** ** C39: character literals *)

(** The value of a quoted text without NUL characters, or rejection. *)
Theorem C39_value : forall T tn fuel st ps rest, l_cond st = INITIAL ->
  Forall part_ok ps -> ps <> [] -> Forall (fun p => part_char p <> "000"%char) ps ->
  yylex T tn (S fuel) st (quoted ps ++ rest) = match char_value ps with Some z => Token (INTEGER z) st rest | None => Error end.
Proof. exact lex_quoted. Qed.
Print Assumptions C39_value.

(** Wide character literals are rejected. *)
Theorem C39_wide : forall T tn fuel st ps rest, l_cond st = INITIAL -> Forall part_ok ps -> ps <> [] ->
  yylex T tn (S fuel) st ("L"%char :: quoted ps ++ rest) = Error.
Proof. exact lex_wide. Qed.
Print Assumptions C39_wide.

(** A quote that does not start a quoted text is a token of its own. *)
Theorem C39_lone_quote : forall T tn fuel st s, l_cond st = INITIAL ->
  (forall ps rest, Forall part_ok ps -> ps <> [] -> sq :: s <> quoted ps ++ rest) ->
  yylex T tn (S fuel) st (sq :: s) = Token (PUNCT sq) st s.
Proof. exact lex_unquoted. Qed.
Print Assumptions C39_lone_quote.

(** ['a'], ['\n'], ['ab'] (which is ['a']); ['\t'] and ['\0'] are rejected; [''] is two quotes. *)
Example C39_nontrivial :
  quoted [Escape "n"] = list_ascii_of_string "'\n'" /\ part_ok (Escape "n") /\ part_ok (Plain "a") /\
  char_value [Plain "a"] = Some 97%Z /\ char_value [Escape "n"] = Some 10%Z /\ char_value [Plain "a"; Plain "b"] = Some 97%Z /\
  char_value [Plain "255"%char] = Some (-1)%Z /\
  char_value [Escape "t"] = None /\ char_value [Escape "0"] = None /\ char_value [Escape sq] = None /\
  (forall ps rest, Forall part_ok ps -> ps <> [] -> [sq; sq] <> quoted ps ++ rest).
Proof.
  do 10 (split; [reflexivity || (cbn; repeat split; discriminate)|]).
  intros ps rest Hps Hn H. destruct ps as [|p ps]; [contradiction|]. inversion Hps as [|? ? Hp _]; subst.
  destruct p as [c|c]; cbn in H, Hp; [injection H as <- _; tauto|discriminate H].
Qed.

(** ** C53: names and reserved words *)

(** A name is read as a whole.  It is a keyword, or ignored, just if it is a reserved word; else a type name or
    an identifier. *)
Theorem C53_name : forall T tn fuel st x rest, l_cond st = INITIAL -> name x -> name_ends rest -> ~ special x ->
  yylex T tn (S fuel) st (x ++ rest) =
    match entry x with
    | Some (Some k) => Token (KW k) (if (String.eqb k "STRUCT" || String.eqb k "UNION")%bool then mklex compound_start_cond (l_buf st) else st) rest
    | Some None => yylex T tn fuel st rest
    | None => Token (if tn x then TYPE_NAME x else IDENTIFIER x) st rest
    end.
Proof. exact lex_name. Qed.
Print Assumptions C53_name.

(** After [struct] or [union] every name is an identifier, also a reserved word or type name. *)
Theorem C53_tag : forall T tn fuel st x rest, l_cond st = compound_start_cond -> name x -> name_ends rest ->
  yylex T tn (S fuel) st (x ++ rest) = Token (IDENTIFIER x) (mklex INITIAL (l_buf st)) rest.
Proof. exact lex_tag. Qed.
Print Assumptions C53_tag.

(** [int], [integer], [int_] and [_x1] followed by a space. *)
Example C53_nontrivial :
  name (list_ascii_of_string "integer") /\ name_ends [" "%char] /\ ~ special (list_ascii_of_string "integer") /\
  entry (list_ascii_of_string "integer") = None /\ entry (list_ascii_of_string "int") = Some (Some "INT") /\
  entry (list_ascii_of_string "const") = Some None /\ name (list_ascii_of_string "_x1") /\
  ~ name (list_ascii_of_string "1x").
Proof.
  assert (Hn : forall x, (exists c v, x = c :: v /\ is_L c = true /\ forallb is_LD v = true) -> name x) by (intros x; apply name_iff).
  split; [apply Hn; do 2 eexists; split; [reflexivity|split; reflexivity]|].
  split; [cbn; rewrite name_char_iff; discriminate|]. split; [intros H; cbn in H; intuition discriminate|].
  do 3 (split; [reflexivity|]). split; [apply Hn; do 2 eexists; split; [reflexivity|split; reflexivity]|].
  intros (c & v & H & Hc & _). injection H as <- _. apply letter_iff in Hc. discriminate Hc.
Qed.

(** ** C54: a minus sign directly before digits belongs to the number *)

(** After a name, as in [x-1], this gives a name and a negative number and not a subtraction. *)
Theorem C54_minus : forall T tn fuel st x ds v rest, l_cond st = INITIAL -> name x -> ~ special x -> entry x = None ->
  numeral 10 ds v -> number_ends rest ->
  exists st', yylex T tn (S fuel) st (x ++ "-"%char :: ds ++ rest) = Token (if tn x then TYPE_NAME x else IDENTIFIER x) st' ("-"%char :: ds ++ rest) /\
    yylex T tn (S fuel) st' ("-"%char :: ds ++ rest) = Token (INTEGER (- v)) st' rest.
Proof. exact lex_name_minus. Qed.
Print Assumptions C54_minus.

(** [x-1;] against [x - 1;]. *)
Example C54_nontrivial :
  tokens CSCRIPT_T (fun _ => false) 20 lex_start (list_ascii_of_string "x-1;") =
    Some [IDENTIFIER ["x"%char]; INTEGER (-1); PUNCT ";"] /\
  tokens CSCRIPT_T (fun _ => false) 20 lex_start (list_ascii_of_string "x - 1;") =
    Some [IDENTIFIER ["x"%char]; PUNCT "-"; INTEGER 1; PUNCT ";"].
Proof. split; vm_compute; reflexivity. Qed.
