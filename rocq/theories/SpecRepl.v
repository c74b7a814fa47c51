(** Specifications for the statements about src/repl.c and src/preprocess.c. *)
From Coq Require Import ZArith List Ascii.
From Verif Require Import ListC ListCSpec Repl.
Import ListNotations.
Local Open Scope list_scope.

(** How writes to a pipe arrive: at most 4096 bytes at once, more in any pieces. *)
Inductive arrives : list (list Z) -> list (list Z) -> Prop :=
| arrives_nil : arrives [] []
| arrives_whole w ws ps : (length w <= Z.to_nat 4096)%nat -> arrives ws ps -> arrives (w :: ws) (w :: ps)
| arrives_cut w ws cut ps : (Z.to_nat 4096 < length w)%nat -> concat cut = w -> ~ In [] cut -> arrives ws ps -> arrives (w :: ws) (cut ++ ps).

(** The identifiers of the mappings that begin with a text, in order, for id maps given with their mappings. *)
Definition begins (t s : text) : bool := if list_eq_dec ascii_dec (firstn (length t) s) t then true else false.
Definition candidates (nm : names) (t : text) (maps : list (Z * list Z)) : list Z :=
  filter (fun i => begins t (str nm i)) (map (left nm) (flat_map snd maps)).

(** What readline is offered. *)
Definition offered (t : text) (l : list text) : option (list text) :=
  match l with [] => None | [x] => Some [x] | _ => Some (t :: l) end.

(** The options for include directories. *)
Definition options (ds : list text) : text := flat_map (fun d => str_I ++ d) ds.
