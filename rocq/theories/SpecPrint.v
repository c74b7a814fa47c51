(** What the REPL shows of pointers, texts, structures and unions; used by C70. *)
From Coq Require Import ZArith List String Ascii Bool.
From Verif Require Import CInt Tree State SpecRun SpecLexer SpecSession.
Import ListNotations.
Local Open Scope string_scope.
Local Open Scope Z_scope.
Local Open Scope list_scope.

(** The characters of a string. *)
Definition letters_of (x : string) : list ascii := list_ascii_of_string x.
Definition line_feed : ascii := "010"%char.

(** The notation of an address: the digits of base 16 in lower case without leading zeros after 0x; the null pointer is (nil). *)
Definition address_text (v : Z) (out : list ascii) : Prop :=
  v = 0 /\ out = letters_of "(nil)" \/
  v <> 0 /\ exists ds, numeral 16 ds v /\ Forall (fun c => In c (letters_of "0123456789abcdef")) ds /\ (forall l, ds <> "0"%char :: l) /\
    out = letters_of "0x" ++ ds.

(** From [a] on there are the characters [t], none of them NUL, and then a NUL, all in storage that is in use. *)
Definition text_at (E : env) (s : state) (a : Z) (t : list ascii) : Prop :=
  storage E s a (Z.of_nat (List.length t) + 1) /\ ~ In "000"%char t /\
  (forall i c, nth_error t i = Some c -> mem s (a + Z.of_nat i) mod 256 = Z.of_N (N_of_ascii c)) /\
  mem s (a + Z.of_nat (List.length t)) mod 256 = 0.

(** What is shown of a variable, structure or union inside [d] others: numbers in decimal, pointers by their address, for pointers to char also
    the characters between quotes, and for structures and unions each member on a line of its own with four blanks for each level.  (The closing brace is not
    indented.) *)
Inductive shown (E : env) (s : state) : nat -> tree -> list ascii -> Prop :=
| shown_number d c a arr n out : integer_type c = true -> storage E s a (width c) -> decimal (value_at s c a) out ->
    shown E s d (T_LIVE_VAR (D_T c) a arr n) out
| shown_pointer d t a arr n out : storage E s a 8 -> t <> D_T D_T_CHAR \/ unsigned_at (mem s) a 8 = 0 -> address_text (unsigned_at (mem s) a 8) out ->
    shown E s d (T_LIVE_VAR (D_T_PTR t) a arr n) out
| shown_text d a arr n out t : storage E s a 8 -> unsigned_at (mem s) a 8 <> 0 -> address_text (unsigned_at (mem s) a 8) out ->
    text_at E s (unsigned_at (mem s) a 8) t ->
    shown E s d (T_LIVE_VAR (D_T_PTR (D_T D_T_CHAR)) a arr n) (out ++ letters_of " (""" ++ t ++ letters_of """)")
| shown_compound d decl ms b lines : shown_members E s (S d) ms lines ->
    shown E s d (T_LIVE_COMPOUND decl ms b) (letters_of "{" ++ [line_feed] ++ lines ++ letters_of "}")
with shown_members (E : env) (s : state) : nat -> list (string * tree) -> list ascii -> Prop :=
| shown_none d : shown_members E s d [] []
| shown_member d x v ms out lines : shown E s d v out -> shown_members E s d ms lines ->
    shown_members E s d ((x, v) :: ms)
      (List.concat (repeat (letters_of "    ") d) ++ letters_of "." ++ letters_of x ++ letters_of " = " ++ out ++ [line_feed] ++ lines).
