(** Variables declared extern; used by C69. *)
From Coq Require Import ZArith List String.
From Verif Require Import Tree State SpecVars.
Import ListNotations.

(** Two types of numbers or pointers that a redeclaration does not distinguish: the same, or both pointers. *)
Definition same_kind (a b : tree) : Prop := a = b \/ exists p q, a = D_T_PTR p /\ b = D_T_PTR q.

(** What the names of external variables mean, given with their number of stars: variables at the addresses of the symbols. *)
Definition extern_names (E : env) (t : tree) (ds : list (nat * string)) : list (string * tree) :=
  map (fun d => (snd d, T_LIVE_VAR (pointer_to (fst d) t) (e_dlsym E (snd d)) false 0)) ds.
