(** Which trees can be dumped, for the statements about the textual dump; used by C76. *)
From Coq Require Import ZArith List String Ascii Permutation.
From Verif Require Import Lang SpecLang Dump.
Import ListNotations.
Local Open Scope string_scope.
Local Open Scope list_scope.

(** The text has none of the characters [l]. *)
Definition without (l s : list ascii) : Prop := forall c, In c l -> ~ In c s.
Definition quote : ascii := """"%char.

(** A value of a base type.  Strings have no quote in them; what printf makes of pointers, floating-point numbers and live values has neither
    a > nor a line end. *)
Inductive of_base : string -> prim -> Prop :=
| ob_integer z : of_base "integer" (PInteger z)
| ob_string s : without [quote] s -> of_base "string" (PString s)
| ob_flag b : of_base "flag" (PFlag b)
| ob_size z : of_base "sz" (PSize z)
| ob_compound b : of_base "comp_decl_type" (PCompound b)
| ob_nothing b : In b ["jmp_buf"; "ffi_cif"; "ffi_types"; "ffi_closure"] -> of_base b PNothing
| ob_printed b s : In b ["ffloat"; "ptr"; "live_var_val"] -> without [">"%char; "010"%char] s -> of_base b (PPrinted s).

(** The object is one of the description [d]: its nodes have the properties of their types, in the order of the description. *)
Inductive fits (d : list def) : obj -> Prop :=
| f_null : fits d ONull
| f_chain l : (forall n, In n l -> fits_node d n) -> fits d (OChain l)
| f_node n : fits_node d n -> fits d (ONode n)
with fits_node (d : list def) : node -> Prop :=
| f_fields name ps fs : In (name, ps) (nodes d) -> fits_fields d ps fs -> fits_node d (mknode name fs)
with fits_fields (d : list def) : list prop -> list (string * val) -> Prop :=
| f_nil : fits_fields d [] []
| f_tree x o ps fs : fits d o -> fits_fields d ps fs -> fits_fields d (Tree x :: ps) ((x, VTree o) :: fs)
| f_prim x b p ps fs : of_base b p -> fits_fields d ps fs -> fits_fields d (Of x b :: ps) ((x, VPrim p) :: fs).

(** Different node types of the description have different names, without blanks and >; different properties of a type too. *)
Definition readable_names (d : list def) : Prop :=
  NoDup (map fst (nodes d)) /\
  forall name ps, In (name, ps) (nodes d) -> without [" "%char; ">"%char] (list_ascii_of_string name) /\ NoDup (map pname ps).

(** [order] lists the properties of each type, in any order. *)
Definition any_order (d : list def) (order : string -> list prop) : Prop :=
  forall name ps, In (name, ps) (nodes d) -> Permutation ps (order name).

(** The definition [x] is that of the node type [name], with the prefix and the properties [t]. *)
Definition defines (x : def) (name : string) (t : string * list prop) : Prop :=
  match x with
  | Node n _ (Some u) | CNode n _ _ _ _ _ (Some u) => n = name /\ u = t
  | _ => False
  end.
