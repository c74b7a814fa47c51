(** What it means that an evaluation restores the scopes; used by C14. *)
From Coq Require Import ZArith List String.
From Verif Require Import Tree State.
Import ListNotations.

(** [c'] is the scope [c] with entries possibly added at the end of its tables. *)
Definition grows (c c' : ctx) : Prop :=
  c_id c' = c_id c /\ c_name c' = c_name c /\ c_retval c' = c_retval c /\
  c_break c' = c_break c /\ c_isfn c' = c_isfn c /\
  (exists m, c_idmap c' = c_idmap c ++ m) /\
  (exists m, c_structs c' = c_structs c ++ m) /\
  (exists m, c_unions c' = c_unions c ++ m) /\
  (exists m, c_allocs c' = c_allocs c ++ m).

(** The scopes [l'] are the scopes [l], except that the innermost one may have grown. *)
Definition restored (l l' : list ctx) : Prop :=
  match l, l' with
  | [], [] => True
  | c :: cs, c' :: cs' => cs' = cs /\ grows c c'
  | _, _ => False
  end.
