(** Small definitions for the statements about the parsers (PropsParser.v). *)
From Coq Require Import ZArith List String Ascii.
From Verif Require Import Tree Lexer Grammar.
Import ListNotations.
Local Open Scope string_scope.
Local Open Scope list_scope.

(** The tree is the only result of parsing the tokens. *)
Definition parses_only (T : target) (n : Z) (w : list token) (t : tree) (m : Z) : Prop :=
  parses T n w t m /\ forall t' m', parses T n w t' m' -> t' = t /\ m' = m.
(** The tokens are a syntax error. *)
Definition syntax_error (T : target) (w : list token) : Prop := forall n t m, ~ parses T n w t m.

(** The classes of tokens that can end an operand, that can start one, and of literals. *)
Definition operand_ends : list sym :=
  [C ")"; C "]"; K "CONST_STRING"; K "DEC"; K "FLOAT_CST"; K "IDENTIFIER"; K "INC"; K "INTEGER"].
Definition operand_starts : list sym :=
  [C "!"; C "&"; C "("; C "*"; C "~"; K "CONST_STRING"; K "DEC"; K "FLOAT_CST"; K "IDENTIFIER"; K "INC"; K "INTEGER"; K "SIZEOF"].
Definition literals : list sym := [K "CONST_STRING"; K "FLOAT_CST"; K "INTEGER"].
(** Keywords of C that the scanner knows (lex.m4) and the grammars do not use. *)
Definition unused_keywords : list string := ["CASE"; "CONTINUE"; "DEFAULT"; "DO"; "GOTO"; "SWITCH"].
