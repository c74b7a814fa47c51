(** What the REPL tells about a name after [?]; used by C73. *)
From Coq Require Import ZArith List String Ascii Bool.
From Verif Require Import CInt Tree State Eval Session SpecRun SpecSession SpecPrint.
Import ListNotations.
Local Open Scope string_scope.
Local Open Scope Z_scope.
Local Open Scope list_scope.

(** The words for the types of numbers. *)
Definition number_words (c : ctype) : string :=
  match c with
  | D_T_CHAR => "signed char" | D_T_SHORT => "signed short" | D_T_INT => "signed integer" | D_T_LONG => "signed long" | D_T_LONGLONG => "signed long long"
  | D_T_UCHAR => "unsigned char" | D_T_USHORT => "signed short" | D_T_UINT => "unsigned integer" | D_T_ULONG => "unsigned long"
  | D_T_ULONGLONG => "unsigned long long" | D_T_FLOAT => "float" | D_T_DOUBLE => "double" | D_T_LONGDOUBLE => "long double"
  end.

(** The words for a type: structures and unions by their name ([cd_id]; struct, union is not said), types never declared by a general word. *)
Inductive described (s : state) : tree -> list ascii -> Prop :=
| desc_number c : described s (D_T c) (letters_of (number_words c))
| desc_void : described s D_T_VOID (letters_of "Void type")
| desc_pointer t out : described s t out -> described s (D_T_PTR t) (letters_of "pointer to a " ++ out)
| desc_compound t c y : view_comp s t = Some c -> cd_id c = T_IDENTIFIER y -> described s t (letters_of y)
| desc_unfinished l : view_comp s (E_INCOMP_TYPE l) = None -> described s (E_INCOMP_TYPE l) (letters_of "Incompletel type").

(** The stars of a type, and what is behind them. *)
Fixpoint behind_pointers (t : tree) : tree := match t with D_T_PTR e => behind_pointers e | _ => t end.

(** The lines about [x]. *)
Definition says_kind (x words : list ascii) : list ascii := x ++ letters_of " is a " ++ words ++ letters_of "." ++ [line_feed].
Definition says_value (x v : list ascii) : list ascii := letters_of "value of " ++ x ++ letters_of " is " ++ v ++ [line_feed].
Definition says_size (x k : list ascii) : list ascii := letters_of "sizeof(" ++ x ++ letters_of ") = " ++ k ++ letters_of " bytes." ++ [line_feed].
Definition says_place (x file line_no : list ascii) : list ascii :=
  x ++ letters_of " was declared at: " ++ file ++ letters_of ":" ++ line_no ++ [line_feed].

(** The file and the line in decimal where [x] was declared. *)
Definition declared_at (H : host) (s : state) (x file line_no : list ascii) : Prop :=
  file = fst (h_place H s (string_of_list_ascii x)) /\ decimal (snd (h_place H s (string_of_list_ascii x))) line_no.

(** The answer to [? x] for other meanings of names, and if the place is told. *)
Inductive other_kind : tree -> string -> bool -> Prop :=
| k_function d ps t b : other_kind (T_FN d ps t b) "Function" true
| k_external f : other_kind (T_EXT_FUNC f) "External function" true
| k_builtin b : other_kind (T_BUILTIN b) "Builtin function handler" false
| k_structure d ms b : other_kind (T_LIVE_COMPOUND d ms b) "Live Compound" false
| k_constant z : other_kind (T_INTEGER z) "Constant integer" false.
