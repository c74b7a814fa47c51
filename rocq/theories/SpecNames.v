(** What a name means in a state; used by C15 and C16. *)
From Coq Require Import List String.
From Verif Require Import Tree State.
Import ListNotations.

(** The table of names [m] has an entry for [x], and the first one is [v]. *)
Definition entry (m : list (string * tree)) (x : string) (v : tree) : Prop :=
  exists m1 m2, m = m1 ++ (x, v) :: m2 /\ ~ In x (map fst m1).

(** The scope [c] declares [x]. *)
Definition declares (c : ctx) (x : string) : Prop := exists v, v <> NULL /\ entry (c_idmap c) x v.

(** The innermost of the scopes [l] that declares [x] declares it as [v]. *)
Definition found_in (l : list ctx) (x : string) (v : tree) : Prop :=
  exists inner c outer, l = inner ++ c :: outer /\ (forall d, In d inner -> ~ declares d x) /\
    v <> NULL /\ entry (c_idmap c) x v.

(** The scopes from the innermost to the outermost, then the included headers. *)
Definition visible (s : state) : list ctx :=
  stack s ++ match incl s with Some c => [c] | None => [] end.

(** The name [x] means [v]. *)
Definition means (s : state) (x : string) (v : tree) : Prop := found_in (visible s) x v.
