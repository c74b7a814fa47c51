(** The builtin functions; used by C74. *)
From Coq Require Import List String.
From Verif Require Import CInt Tree.
Import ListNotations.
Local Open Scope string_scope.

(** The function of the C library that a builtin function stands for. *)
Definition library_function (b : builtin) : string :=
  match b with strcpy_chk => "strcpy" | strcat_chk => "strcat" end.

(** The names that are known from the start, and what they mean. *)
Definition known_names : list (string * tree) :=
  [("__builtin_va_list", D_T D_T_INT);
   ("__builtin___strcpy_chk", T_BUILTIN strcpy_chk);
   ("__builtin___strcat_chk", T_BUILTIN strcat_chk)].
