(** The textual dump of a tree (option -T of the command line): the function tree_dump that /repo/src/gendump.cpp generates from a
    language description, and /repo/src/tree-dump-primitives.h.  A description is a list of definitions as in CLang.v. *)
From Coq Require Import ZArith List String Ascii Bool.
From Verif Require Import Lang SpecLang Lexer.
Import ListNotations.
Local Open Scope string_scope.
Local Open Scope Z_scope.
Local Open Scope list_scope.
Local Notation chars := list_ascii_of_string.

(** The value of a property that is not a tree, by the functions of /repo/src/tree-dump-primitives.h: integer (66-69), string (28-34), flag
    (20-26), sz (41-44), comp_decl_type (87-97: true is sstruct), those of which nothing is printed (36-39, 71-85), and the others (10-18, 46-64),
    for which the text that printf makes of them is given. *)
Inductive prim :=
| PInteger (z : Z)
| PString (s : list ascii)
| PFlag (b : bool)
| PSize (z : Z)
| PCompound (b : bool)
| PNothing
| PPrinted (s : list ascii).

(** The objects that are dumped: a null pointer, a chain or another node, with the values of its properties, /repo/src/tree.h:72-81.
    Simplification: the elements of a chain are nodes that are not chains. *)
Inductive obj := ONull | OChain (l : list node) | ONode (n : node)
with node := mknode (name : string) (fields : list (string * val))
with val := VTree (o : obj) | VPrim (p : prim).

(** The functions tree_dump_ for the base types with TEXTUAL, /repo/src/tree-dump-primitives.h:10-97. *)
Definition prim_text (p : prim) : list ascii :=
  match p with
  | PInteger z | PSize z => print_integer z
  | PString s => """"%char :: s ++ [""""%char]
  | PFlag b => chars (if b then "true" else "false")
  | PCompound b => chars (if b then "struct" else "union")
  | PNothing => []
  | PPrinted s => s
  end.

(** A line end, as printed at /repo/src/gendump.cpp:28, 36, 53. *)
Definition line_end : list ascii := ["010"%char].
(** [tree_print_indent], /repo/src/gendump.cpp:10-15. *)
Definition indent (depth : nat) : list ascii := repeat " "%char (2 * depth).

(** The definition of a node type: its prefix and properties, /repo/src/lang.h:23-32.  A type without properties has no accessors. *)
Definition type_of (d : list def) (name : string) : string * list prop :=
  match find (fun x => match x with Node n _ _ | CNode n _ _ _ _ _ _ => n =? name | _ => false end)%string d with
  | Some (Node _ _ (Some t)) | Some (CNode _ _ _ _ _ _ (Some t)) => t
  | _ => ("", [])
  end.

(** [getPropAccessor], /repo/src/lang.h:27-30. *)
Definition accessor (prefix prop_name : string) : list ascii := chars prefix ++ chars "_" ++ chars prop_name.
(** isTree of the base type, /repo/src/lang.h:11. *)
Definition is_tree (p : prop) : bool := match p with Tree _ => true | Of _ _ => false end.

Section Dump.
Variable d : list def.
(** The order in which the loop over the unordered_map of the properties of a type meets them, /repo/src/gendump.cpp:32. *)
Variable order : string -> list prop.

(** What is printed of the property [p]; [texts] are the texts of the values of all properties, /repo/src/gendump.cpp:41-48. *)
Definition prop_text (prefix : string) (texts : list (string * list ascii)) (p : prop) : list ascii :=
  chars " " ++ accessor prefix (pname p) ++ chars ": " ++ match map_at (pname p) texts with Some t => t | None => [] end.

(** The loop over the properties, /repo/src/gendump.cpp:32-50. *)
Definition props_text (depth : nat) (prefix : string) (texts : list (string * list ascii)) (l : list prop) : list ascii :=
  match l with
  | [] => []
  | p :: l => prop_text prefix texts p ++ flat_map (fun p => line_end ++ indent depth ++ chars "     " ++ prop_text prefix texts p) l
  end.

(** A case of __tree_dump_1, /repo/src/gendump.cpp:22-58, given the texts of the values. *)
Definition case_text (depth : nat) (name : string) (texts : list (string * list ascii)) : list ascii :=
  let l := order name in
  line_end ++ indent depth ++ chars "<tree " ++ chars name ++ props_text depth (fst (type_of d name)) texts l ++
  (if existsb is_tree l then line_end ++ indent depth else []) ++ chars ">".

(** [__tree_dump_1], /repo/src/gendump.cpp:17-20, 60-72, and [__tree_dump], /repo/src/gendump.cpp:74-98. *)
Fixpoint tree_dump_1 (depth : nat) (n : node) {struct n} : list ascii :=
  match n with
  | mknode name fields => case_text depth name (map (fun f => (fst f, val_text (S depth) (snd f))) fields)
  end
with tree_dump_ (depth : nat) (o : obj) {struct o} : list ascii :=
  match o with
  | ONull => indent depth ++ chars "<null>" ++ line_end
  | OChain l => line_end ++ indent depth ++ chars "<chain" ++ flat_map (tree_dump_1 (S depth)) l ++ line_end ++ indent depth ++ chars ">"
  | ONode n => tree_dump_1 depth n
  end
with val_text (depth : nat) (v : val) {struct v} : list ascii :=
  match v with
  | VTree o => tree_dump_ depth o
  | VPrim p => prim_text p
  end.

(** [tree_dump], /repo/src/gendump.cpp:100-104. *)
Definition tree_dump (o : obj) : list ascii := tree_dump_ 0 o ++ line_end.
End Dump.
