(** Which names are type names; used by C36. *)
From Coq Require Import ZArith List String Bool.
From Verif Require Import CInt Tree Typename.
Import ListNotations.
Local Open Scope string_scope.
Local Open Scope list_scope.

(** The name introduced by a declarator: under pointers, arrays and functions. *)
Inductive introduces : tree -> string -> Prop :=
| intro_name x : introduces (T_IDENTIFIER x) x
| intro_pointer t x : introduces t x -> introduces (T_POINTER t) x
| intro_array t n x : introduces t x -> introduces (T_ARRAY t n) x
| intro_function t args rt body x : introduces t x -> introduces (T_FN t args rt body) x.

(** Declarators as the parser makes them: names under pointers, arrays and functions, with or
    without an initialiser or bit-field width. *)
Inductive declarator : tree -> Prop :=
| d_name x : declarator (T_IDENTIFIER x)
| d_pointer t : declarator t -> declarator (T_POINTER t)
| d_array t n : declarator t -> declarator (T_ARRAY t n)
| d_function t args rt body : declarator t -> declarator (T_FN t args rt body)
| d_init l t e : declarator t -> declarator (T_ASSIGN l t e).

(** Events as the parser makes them. *)
Definition parsed (e : event) : Prop :=
  match e with
  | Declaration _ specs decls => exists sps ds, specs = CHAIN_HEAD sps /\ decls = CHAIN_HEAD ds /\ Forall declarator ds
  | _ => True
  end.

(** The event is a typedef of [x]. *)
Definition typedefs (e : event) (x : string) : Prop :=
  exists l specs ds d, e = Declaration l (CHAIN_HEAD specs) (CHAIN_HEAD ds) /\ In (T_SPEC T_TYPEDEF) specs /\
    In d ds /\ introduces d x.

(** Headers are being parsed after the events [p]. *)
Definition in_headers (p : list event) : Prop :=
  exists q r, p = q ++ HeadersBegin :: r /\ ~ In HeadersEnd r.

(** [x] is a builtin type name, or was introduced by a typedef: outside headers, or in headers
    with no reset since. *)
Definition type_name (l : list event) (x : string) : Prop :=
  x = "__builtin_va_list" \/ x = "_Float128" \/
  exists p e q, l = p ++ e :: q /\ typedefs e x /\ (in_headers p -> ~ In Reset q).
