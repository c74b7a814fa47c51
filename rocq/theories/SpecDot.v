(** Trees and their pictures; used by C77. *)
From Coq Require Import ZArith List String Ascii Permutation.
From Verif Require Import Lang SpecLang SpecSession Dump Dot.
Import ListNotations.
Local Open Scope string_scope.
Local Open Scope list_scope.

(** The nodes in an object, at any depth. *)
Inductive inside : dnode -> dobj -> Prop :=
| in_node n : inside n (DNode n)
| in_chain n m a l : In m l -> inside n (DNode m) -> inside n (DChain a l)
| in_field n a name fs x o : In (x, DTree o) fs -> inside n o -> inside n (DNode (mkd a name fs)).

(** The chains in an object, at any depth, with their addresses. *)
Inductive chain_inside : Z -> list dnode -> dobj -> Prop :=
| ci_here a l : chain_inside a l (DChain a l)
| ci_chain c k m a l : In m l -> chain_inside c k (DNode m) -> chain_inside c k (DChain a l)
| ci_field c k a name fs x o : In (x, DTree o) fs -> chain_inside c k o -> chain_inside c k (DNode (mkd a name fs)).

(** The nodes have the properties of their types, once each. *)
Definition complete (order : string -> list prop) (o : dobj) : Prop :=
  forall a name fs, inside (mkd a name fs) o -> NoDup (map fst fs) /\ Permutation (map fst fs) (map pname (order name)).

(** What the picture of [o] shows: all objects with their types, their values, where their properties point to, and the elements of chains. *)
Inductive drawn (o : dobj) : statement -> Prop :=
| d_object a name fs : inside (mkd a name fs) o -> drawn o (Object a name)
| d_edge a name fs x n : inside (mkd a name fs) o -> In (x, DTree (DNode n)) fs -> drawn o (Edge a (addr n) x)
| d_first a name fs x c n l : inside (mkd a name fs) o -> In (x, DTree (DChain c (n :: l))) fs -> drawn o (First a (addr n) x)
| d_first_empty a name fs x c : inside (mkd a name fs) o -> In (x, DTree (DChain c [])) fs -> drawn o (First a c x)
| d_value a name fs x p : inside (mkd a name fs) o -> In (x, DPrim p) fs -> drawn o (Value a (dot_text p))
| d_value_edge a name fs x p : inside (mkd a name fs) o -> In (x, DPrim p) fs -> drawn o (ValueEdge a x)
| d_open c before n after : chain_inside c (before ++ n :: after) o -> drawn o (Open c (List.length before))
| d_close c n l : chain_inside c (n :: l) o -> drawn o Close
| d_next c before n m after : chain_inside c (before ++ n :: m :: after) o -> drawn o (Next (addr n) (addr m) c (S (List.length before))).

(** The label of the node with the values of the object at [a] when the statements are read: the last one counts. *)
Fixpoint last_label (a : Z) (l : list statement) : option (list ascii) :=
  match l with
  | [] => None
  | s :: l =>
      match last_label a l with
      | Some t => Some t
      | None => match s with Value b t => if Z.eqb a b then Some t else None | _ => None end
      end
  end.

(** The label for a value: numbers in decimal notation, strings as they are, flags and kinds of compound types in words. *)
Inductive reads : prim -> list ascii -> Prop :=
| r_integer z t : decimal z t -> reads (PInteger z) t
| r_size z t : decimal z t -> reads (PSize z) t
| r_string t : reads (PString t) t
| r_true : reads (PFlag true) (list_ascii_of_string "true")
| r_false : reads (PFlag false) (list_ascii_of_string "false")
| r_struct : reads (PCompound true) (list_ascii_of_string "struct")
| r_union : reads (PCompound false) (list_ascii_of_string "union")
| r_nothing : reads PNothing []
| r_printed t : reads (PPrinted t) t.

(** The two lists of statements make the same picture. *)
Definition same_picture (l l' : list statement) : Prop :=
  (forall a, last_label a l = last_label a l') /\
  forall s, (forall a t, s <> Value a t) -> (In s l <-> In s l').
