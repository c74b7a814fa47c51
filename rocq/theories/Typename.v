(** Model of src/typename.c and of the parser's calls of it.  The two tables are lists of names. *)
From Coq Require Import ZArith List String Bool.
From Verif Require Import CInt Tree.
Import ListNotations.
Local Open Scope string_scope.

(** The static variables of src/typename.c:4-11. *)
Record names := mknames { type_names : list string; include_type_names : list string; in_include_file : bool }.

(** [__add_typename], src/typename.c:13-18; [tree_chain] adds at the end. *)
Definition add_name (x : string) (s : names) : names :=
  if in_include_file s then mknames (type_names s) (include_type_names s ++ [x]) (in_include_file s)
  else mknames (type_names s ++ [x]) (include_type_names s) (in_include_file s).

(** [add_typename], src/typename.c:20-29. *)
Fixpoint add_typename (t : tree) (s : names) : names :=
  match t with
  | T_IDENTIFIER x => add_name x s
  | T_POINTER e => add_typename e s
  | _ => s
  end.

(** [typename_set_include_file], src/typename.c:31-34. *)
Definition set_include_file (s : names) : names := mknames (type_names s) (include_type_names s) true.
(** [typename_unset_include_file], src/typename.c:36-39. *)
Definition unset_include_file (s : names) : names := mknames (type_names s) (include_type_names s) false.
(** [reset_include_typenames], src/typename.c:41-44. *)
Definition reset_include_typenames (s : names) : names := mknames (type_names s) [] (in_include_file s).

(** [typename_init], src/typename.c:46-55. *)
Definition typename_init (s : names) : names :=
  let s := mknames [] (include_type_names s) (in_include_file s) in
  let s := reset_include_typenames s in
  let s := add_typename (T_IDENTIFIER "__builtin_va_list") s in
  add_typename (T_IDENTIFIER "_Float128") s.

(** The static variables when the program starts, src/typename.c:4-11. *)
Definition names_start : names := mknames [] [] false.

(** [is_typename], src/typename.c:57-72. *)
Definition is_typename (x : string) (s : names) : bool :=
  if existsb (String.eqb x) (type_names s) then true
  else existsb (String.eqb x) (include_type_names s).

(** [find_ids_to_map_to_typenames], src/parser.m4:34-53. *)
Fixpoint find_ids_to_map_to_typenames (t : tree) (s : names) : names :=
  match t with
  | T_IDENTIFIER _ => add_typename t s
  | T_POINTER e => find_ids_to_map_to_typenames e s
  | T_FN d _ _ _ => find_ids_to_map_to_typenames d s
  | T_ARRAY d _ => find_ids_to_map_to_typenames d s
  | T_DECL _ _ (CHAIN_HEAD l) => fold_left (fun s i => find_ids_to_map_to_typenames i s) l s
  | _ => s
  end.

(** [maybe_add_typenames], src/parser.m4:55-59, called for every declaration with declarators,
    src/parser.m4:622-630. *)
Definition maybe_add_typenames (l : Z) (specs decls : tree) (s : names) : names :=
  if chain_has T_TYPEDEF specs then find_ids_to_map_to_typenames (T_DECL l specs decls) s else s.

(** What happens to the tables while programs and headers are parsed: a declaration is parsed
    (src/parser.m4:622-630); the calls before and after parsing the headers
    (src/evaluate.c:2572-2577). *)
Inductive event :=
| Declaration (l : Z) (specs decls : tree)
| Reset
| HeadersBegin
| HeadersEnd.

(** src/parser.m4:628, src/evaluate.c:2572-2577. *)
Definition on_event (s : names) (e : event) : names :=
  match e with
  | Declaration l specs decls => maybe_add_typenames l specs decls s
  | Reset => reset_include_typenames s
  | HeadersBegin => set_include_file s
  | HeadersEnd => unset_include_file s
  end.
(** The tables after the events, from the start of the program (src/main.c:149). *)
Definition after_events (l : list event) : names := fold_left on_event l (typename_init names_start).
