(** Texts of literals and what they denote; used by C37 - C39 and C53. *)
From Coq Require Import ZArith List String Ascii Bool.
From Verif Require Import Lexer.
Import ListNotations.
Local Open Scope string_scope.
Local Open Scope list_scope.

(** The digit [d] in lower and in upper case. *)
Definition digit_is (base : nat) (c : ascii) (d : Z) : Prop :=
  exists n, (n < base)%nat /\ d = Z.of_nat n /\
    (String.get n "0123456789abcdef" = Some c \/ String.get n "0123456789ABCDEF" = Some c).

(** The number with the digits [ds] in the given base. *)
Fixpoint place_value (base : Z) (ds : list Z) : Z :=
  match ds with
  | [] => 0
  | d :: ds => d * base ^ Z.of_nat (List.length ds) + place_value base ds
  end%Z.

(** [text] is a nonempty sequence of digits that denotes [v]. *)
Definition numeral (base : nat) (text : list ascii) (v : Z) : Prop :=
  text <> [] /\ exists ds, Forall2 (digit_is base) text ds /\ v = place_value (Z.of_nat base) ds.

Definition decimal_digit (c : ascii) : Prop := exists d, digit_is 10 c d.
Definition hex_digit (c : ascii) : Prop := exists d, digit_is 16 c d.
Definition octal_digit (c : ascii) : Prop := exists d, digit_is 8 c d.

(** The text [rest] after a decimal number does not belong to the number: no digit follows, and
    no fraction. *)
Definition number_ends (rest : list ascii) : Prop :=
  match rest with
  | [] => True
  | c :: rest => ~ decimal_digit c /\
      (c = "."%char -> match rest with d :: _ => ~ decimal_digit d | [] => True end)
  end.

(** The text [rest] continues a [0] to a hexadecimal number. *)
Definition hex_follows (rest : list ascii) : Prop :=
  exists d r, rest = "x"%char :: d :: r /\ hex_digit d.

(** ** String literals *)

(** A character that stands for itself in a string literal. *)
Definition ordinary (c : ascii) : Prop := c <> bs /\ c <> dq /\ c <> nl /\ c <> "000"%char.

(** The byte of an octal escape with value [v]; nothing for NUL; huge values give 255. *)
Definition octal_byte (v : Z) : list ascii :=
  let b := if (v <? 2 ^ 63)%Z then (v mod 256)%Z else 255%Z in
  if (b =? 0)%Z then [] else [ascii_of_nat (Z.to_nat b)].

(** The text does not start with an octal digit. *)
Definition octal_ends (b : list ascii) : Prop := match b with c :: _ => ~ octal_digit c | [] => True end.

(** The text between the quotes stands for the given characters. *)
Inductive decodes : list ascii -> list ascii -> Prop :=
| dec_end : decodes [] []
| dec_char c b o : ordinary c -> decodes b o -> decodes (c :: b) (c :: o)
| dec_newline b o : decodes b o -> decodes (bs :: "n"%char :: b) (nl :: o)
| dec_tab b o : decodes b o -> decodes (bs :: "t"%char :: b) (tab :: o)
| dec_backslash b o : decodes b o -> decodes (bs :: bs :: b) (bs :: o)
| dec_quote b o : decodes b o -> decodes (bs :: dq :: b) (dq :: o)
| dec_octal ds v b o : numeral 8 ds v -> octal_ends b -> decodes b o -> decodes (bs :: ds ++ b) (octal_byte v ++ o).

(** A way to write a string. *)
Definition encode_char (c : ascii) : list ascii :=
  if Ascii.eqb c bs then [bs; bs] else if Ascii.eqb c dq then [bs; dq]
  else if Ascii.eqb c nl then [bs; "n"%char] else [c].
Definition encode (s : list ascii) : list ascii := flat_map encode_char s.

(** ** Character literals *)

(** The parts of a quoted text: a character that stands for itself, or an escape. *)
Inductive part := Plain (c : ascii) | Escape (c : ascii).
Definition part_ok (p : part) : Prop :=
  match p with
  | Plain c => c <> bs /\ c <> sq /\ c <> nl
  | Escape c => c <> nl
  end.
Definition part_text (p : part) : list ascii := match p with Plain c => [c] | Escape c => [bs; c] end.
Definition quoted (ps : list part) : list ascii := sq :: flat_map part_text ps ++ [sq].

(** The code of a character as a signed byte. *)
Definition code (c : ascii) : Z :=
  let n := Z.of_nat (nat_of_ascii c) in if (n <? 128)%Z then n else (n - 256)%Z.

(** The value of a character literal with the given parts; None: rejected. *)
Definition char_value (ps : list part) : option Z :=
  match ps with
  | [Plain c] => Some (code c)
  | [Plain c; Plain _] => Some (code c)
  | [Escape c] => if Ascii.eqb c "n" then Some 10%Z else if Ascii.eqb c bs then Some 92%Z
                  else if Ascii.eqb c "r" then Some 13%Z else None
  | _ => None
  end.

(** ** Names *)
Definition letters : list ascii := list_ascii_of_string "abcdefghijklmnopqrstuvwxyzABCDEFGHIJKLMNOPQRSTUVWXYZ_".
Definition digits : list ascii := list_ascii_of_string "0123456789".
Definition name_char (c : ascii) : Prop := In c letters \/ In c digits.
(** A name: a letter, then letters and digits. *)
Definition name (x : list ascii) : Prop := exists c v, x = c :: v /\ In c letters /\ Forall name_char v.
(** The text cannot continue a name. *)
Definition name_ends (rest : list ascii) : Prop := match rest with c :: _ => ~ name_char c | [] => True end.

(** The reserved words with their tokens; None: ignored. *)
Definition reserved : list (string * option string) :=
  [("_Nullable", None); ("_Nonnull", None); ("restrict", None); ("__restrict", None); ("__extension__", None); ("volatile", None);
   ("inline", None); ("__inline", None); ("inline__", None); ("__inline__", None);
   ("auto", Some "AUTO"); ("break", Some "BREAK"); ("case", Some "CASE"); ("char", Some "CHAR"); ("const", None);
   ("continue", Some "CONTINUE"); ("default", Some "DEFAULT"); ("do", Some "DO"); ("double", Some "DOUBLE"); ("else", Some "ELSE");
   ("enum", Some "ENUM"); ("extern", Some "EXTERN"); ("float", Some "FLOAT"); ("for", Some "FOR"); ("goto", Some "GOTO");
   ("if", Some "IF"); ("int", Some "INT"); ("_Bool", Some "BOOL"); ("long", Some "LONG"); ("register", Some "REGISTER");
   ("return", Some "RETURN"); ("short", Some "SHORT"); ("signed", Some "SIGNED"); ("sizeof", Some "SIZEOF"); ("static", Some "STATIC");
   ("struct", Some "STRUCT"); ("switch", Some "SWITCH"); ("typedef", Some "TYPEDEF"); ("union", Some "UNION");
   ("unsigned", Some "UNSIGNED"); ("void", Some "VOID"); ("while", Some "WHILE")].
(** The entry of a word. *)
Definition entry (x : list ascii) : option (option string) :=
  option_map snd (find (fun p => String.eqb (fst p) (string_of_list_ascii x)) reserved).
(** The words that start a construct the scanner may skip together with the parentheses after it, and the prefix of
    wide character literals. *)
Definition special (x : list ascii) : Prop := In (string_of_list_ascii x) ["__attribute__"; "__asm"; "__asm__"; "L"].
