(** Language descriptions, for the statements about src/lang.cpp. *)
From Coq Require Import String List Bool Arith.
From Verif Require Import Lang.
Import ListNotations.
Local Open Scope string_scope.
Local Open Scope list_scope.

(** A property of a node type: a tree, or of a declared base type. *)
Inductive prop := Tree (n : string) | Of (n b : string).
Definition pname (p : prop) : string := match p with Tree n => n | Of n _ => n end.

(** A definition of a language description.  Node types may have a list of properties with a prefix for the accessors. *)
Inductive def :=
| Bases (l : list (string * string))
| Node (name friendly : string) (props : option (string * list prop))
| CNode (name friendly ctype format member ffi : string) (props : option (string * list prop))
| Spec (name : string) (l : list (list string))
| Ignore (name : string)
| Self (name : string).

(** How descriptions are written. *)
Definition ptext (p : prop) : list token :=
  match p with Tree n => [STRING n] | Of n b => [LP; STRING n; IDENTIFIER b; RP] end.
Definition plist (o : option (string * list prop)) : list token :=
  match o with None => [] | Some (prefix, ps) => STRING prefix :: LP :: flat_map ptext ps ++ [RP] end.
Definition dtext (d : def) : list token :=
  match d with
  | Bases l => LP :: DEFBASETYPES :: flat_map (fun e => [LP; IDENTIFIER (fst e); STRING (snd e); RP]) l ++ [RP]
  | Node n f o => LP :: DEFTYPE :: IDENTIFIER n :: STRING f :: plist o ++ [RP]
  | CNode n f c g m ffi o => LP :: DEFCTYPE :: IDENTIFIER n :: STRING f :: STRING c :: STRING g :: STRING m :: IDENTIFIER ffi :: plist o ++ [RP]
  | Spec n l => LP :: DEFSPECIFIER :: IDENTIFIER n :: LP :: flat_map (fun s => LP :: map IDENTIFIER s ++ [RP]) l ++ [RP; RP]
  | Ignore n => [LP; DEFSPECIFIER; IGNORE; IDENTIFIER n; RP]
  | Self n => [LP; DEFSPECIFIER; SELF; IDENTIFIER n; RP]
  end.
Definition text (d : list def) : list token := flat_map dtext d.

(** The base types declared, and the node types with their properties, in order. *)
Definition bases (d : list def) : list (string * string) := flat_map (fun x => match x with Bases l => l | _ => [] end) d.
Definition listed (o : option (string * list prop)) : list prop := match o with Some (_, ps) => ps | None => [] end.
Definition nodes (d : list def) : list (string * list prop) :=
  flat_map (fun x => match x with Node n _ o => [(n, listed o)] | CNode n _ _ _ _ _ o => [(n, listed o)] | _ => [] end) d.

(** The base types of properties are declared before. *)
Definition well_formed (d : list def) : Prop :=
  forall before node after n ps p b, d = before ++ node :: after -> nodes [node] = [(n, ps)] -> In (Of p b) ps -> In b (map fst (bases before)).

(** The C type of a property; the first declaration of a base type counts. *)
Inductive has_type (d : list def) : prop -> string -> Prop :=
| type_tree n : has_type d (Tree n) "tree"
| type_of n b t before after : bases d = before ++ (b, t) :: after -> ~ In b (map fst before) -> has_type d (Of n b) t.

(** The field of a property: named by its base type and by how many properties of the same base type are listed before. *)
Definition same_base (p q : prop) : bool :=
  match p, q with Tree _, Tree _ => true | Of _ b, Of _ c => b =? c | _, _ => false end.
Definition base (p : prop) : string := match p with Tree _ => "t" | Of _ b => b end.
Definition field (before : list prop) (p : prop) : string := (base p ++ to_string (List.length (filter (same_base p) before)))%string.

(** Property n of a node type with the properties ps is in the field f of type t. *)
Definition field_of (d : list def) (ps : list prop) (n f t : string) : Prop :=
  exists before p after, ps = before ++ p :: after /\ pname p = n /\ ~ In n (map pname before) /\ f = field before p /\ has_type d p t.
(** Some node type needs a field f of type t. *)
Definition needed (d : list def) (t f : string) : Prop :=
  exists n before p after, In (n, before ++ p :: after) (nodes d) /\ has_type d p t /\ f = field before p.

(** No name of a base type is that of the trees, or another with digits appended. *)
Definition digits (s : string) : Prop := s <> "" /\ Forall (fun c => (48 <= Ascii.nat_of_ascii c <= 57)%nat) (list_ascii_of_string s).
Definition separate (d : list def) : Prop :=
  ~ In "t" (map fst (bases d)) /\
  forall b c s, In b ("t" :: map fst (bases d)) -> In c ("t" :: map fst (bases d)) -> digits s -> b <> (c ++ s)%string.
