(** The dump of a tree as a graph (option -D of the command line, /repo/src/main.c:130): the function tree_dump_dot that /repo/src/gendot.cpp generates from a
    language description, and /repo/src/tree-dump-primitives.h.  The output is modelled as a list of the statements of the graph. *)
From Coq Require Import ZArith List String Ascii Bool.
From Verif Require Import Lang SpecLang Lexer Dump.
Import ListNotations.
Local Open Scope string_scope.
Local Open Scope list_scope.

(** The objects as in Dump.v, with their addresses, /repo/src/tree.h:72-81.  Simplification: no object is its own part, and an object that is
    part of two others is written twice, as it is dumped twice. *)
Inductive dobj := DNull | DChain (a : Z) (l : list dnode) | DNode (n : dnode)
with dnode := mkd (a : Z) (name : string) (fields : list (string * dval))
with dval := DTree (o : dobj) | DPrim (p : prim).

(** The address of a node, /repo/src/tree.h:72. *)
Definition addr (n : dnode) : Z := match n with mkd a _ _ => a end.

(** The statements of the graph: the node of an object with its type (/repo/src/gendot.cpp:28), an edge to another object (40-41) or to the
    first of a chain (37-38), the node with a value (47-50), the edge to it (52-53), the begin and end of a cluster (85-88), and the edge from
    an element of a chain to the next (92-93).  Simplification: indentation and the fixed frame of the graph (107-111) are left out. *)
Inductive statement :=
| Object (a : Z) (type : string)
| Edge (a b : Z) (label : string)
| First (a b : Z) (label : string)
| Value (a : Z) (label : list ascii)
| ValueEdge (a : Z) (label : string)
| Open (chain : Z) (k : nat)
| Close
| Next (a b chain : Z) (k : nat).

(** The functions tree_dump_ for the base types with DOT, /repo/src/tree-dump-primitives.h:10-97. *)
Definition dot_text (p : prim) : list ascii :=
  match p with
  | PString s => s
  | _ => prim_text p
  end.

(** first_member, /repo/src/gendot.cpp:35-36: for an empty chain the loop ends at the chain itself (/repo/src/list.h:37-40). *)
Definition first_member (a : Z) (l : list dnode) : Z := match l with n :: _ => addr n | [] => a end.

(** The loop over a chain at the address [a], /repo/src/gendot.cpp:83-99; the elements are given by address and output. *)
Fixpoint links (a : Z) (subgraph_no : nat) (last_chain : option Z) (l : list (Z * list statement)) : list statement :=
  match l with
  | [] => []
  | (i, out) :: l =>
      Open a subgraph_no :: out ++ Close ::
      match last_chain with Some b => [Next b i a subgraph_no] | None => [] end ++
      links a (S subgraph_no) (Some i) l
  end.

Section Dot.
(** The order of the unordered_map of the properties, /repo/src/gendot.cpp:30. *)
Variable order : string -> list prop.

(** [__tree_dump_dot_1], /repo/src/gendot.cpp:19-58, and [__tree_dump_dot], /repo/src/gendot.cpp:74-103. *)
Fixpoint tree_dump_dot_1 (n : dnode) : list statement :=
  match n with
  | mkd a name fields =>
      let outs := map (fun f => (fst f, field_dot a (fst f) (snd f))) fields in
      Object a name :: flat_map (fun p => match map_at (pname p) outs with Some out => out | None => [] end) (order name)
  end
with tree_dump_dot_ (o : dobj) : list statement :=
  match o with
  | DNull => []
  | DChain a l => links a 0 None (map (fun n => (addr n, tree_dump_dot_1 n)) l)
  | DNode n => tree_dump_dot_1 n
  end
(** A property [x] of the object at [a], /repo/src/gendot.cpp:30-55.  Simplification: isTree (32) is read off the value. *)
with field_dot (a : Z) (x : string) (v : dval) {struct v} : list statement :=
  match v with
  | DTree o =>
      match o with
      | DNull => []
      | DChain c l => First a (first_member c l) x :: tree_dump_dot_ o
      | DNode n => Edge a (addr n) x :: tree_dump_dot_ o
      end
  | DPrim p => [Value a (dot_text p); ValueEdge a x]
  end.

(** [tree_dump_dot], /repo/src/gendot.cpp:105-112. *)
Definition tree_dump_dot (o : dobj) : list statement := tree_dump_dot_ o.
End Dot.
