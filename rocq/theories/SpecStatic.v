(** Static variables and the storage in use; used by C19 and C20. *)
From Coq Require Import ZArith List String Bool.
From Verif Require Import CInt Tree State StepsFacts SpecRun SpecVars.
Import ListNotations.
Local Open Scope Z_scope.

(** The declaration [l] has been executed as a static one: it defined the names [m] and keeps the
    storage at the addresses [al]. *)
Definition static_entry (s : state) (l : Z) (m : list (string * tree)) (al : list Z) : Prop :=
  zfind l (statics s) = Some (m, al).

(** The scope [c] with the names [m] added. *)
Definition scope_names (c : ctx) (m : list (string * tree)) : ctx :=
  mkctx (c_id c) (c_name c) (c_idmap c ++ m) (c_structs c) (c_unions c) (c_allocs c)
    (c_retval c) (c_break c) (c_isfn c).

(** From [s] to [s'] the names [m] were added to the current scope; otherwise nothing happened
    but garbage collection. *)
Definition names_added (E : env) (s : state) (m : list (string * tree)) (s' : state) : Prop :=
  (exists c cs, stack s = c :: cs /\ stack s' = scope_names c m :: cs) /\ mem s' = mem s /\ same_rest s s' /\
  forall a n, storage E s a n -> storage E s' a n.

(** From [s] to [s'] the static variable [x] of type [t] was made by the declaration [l]: its
    storage at [a] is new, belongs to the declaration and not to a scope, and only it was written. *)
Definition static_made (E : env) (s : state) (l : Z) (x : string) (t : tree) (a : Z) (s' : state) : Prop :=
  let m := [(x, T_LIVE_VAR t a false 0)] in
  (exists c cs, stack s = c :: cs /\ stack s' = scope_names c m :: cs) /\
  statics s' = (l, (m, [a])) :: statics s /\ new_object E s a 16 s' /\
  (forall y, y < a \/ a + 16 <= y -> mem s' y = mem s y) /\
  incl s' = incl s /\ includes s' = includes s /\ ov_ret s' = ov_ret s /\ comps s' = comps s /\
  trace s' = trace s /\ breaks s' = breaks s.

(** The storage block at [base] belongs to a scope on the stack, to the included headers or to a
    static declaration of the program. *)
Inductive in_use (E : env) (s : state) (base : Z) : Prop :=
| use_scope c : In c (stack s) -> In base (c_allocs c) -> in_use E s base
| use_header c : incl s = Some c -> In base (c_allocs c) -> in_use E s base
| use_static l m al : In (l, (m, al)) (statics s) -> e_rooted E l = true -> In base al -> in_use E s base.

(** An allocated block of [n] bytes at [base]. *)
Definition allocated (s : state) (base n : Z) : Prop := exists tr, In (mkblock base n tr) (blocks s).
