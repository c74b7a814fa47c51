(** Temporary objects, pointers, arrays and constants; used by C21 - C27, C42. *)
From Coq Require Import ZArith List String Bool.
From Verif Require Import CInt Tree State Eval StepsFacts SpecRun SpecTypes SpecExpr SpecVars.
Import ListNotations.
Local Open Scope Z_scope.
Local Open Scope list_scope.

(** What is in use in [s] is still in use in [s'] and has the same contents. *)
Definition kept (E : env) (s s' : state) : Prop :=
  (forall a n, storage E s a n -> storage E s' a n) /\
  (forall a, storage E s a 1 -> mem s' a = mem s a).

(** The scope [c] after it has been given the objects at [al] and the names [m]. *)
Definition scope_plus (c : ctx) (m : list (string * tree)) (al : list Z) : ctx :=
  mkctx (c_id c) (c_name c) (c_idmap c ++ m) (c_structs c) (c_unions c) (c_allocs c ++ al)
    (c_retval c) (c_break c) (c_isfn c).

(** From [s] to [s'] the current scope got the names [m] and possibly new objects at [al], where
    nothing was in use before; nothing else happened. *)
Definition only_new (E : env) (s : state) (m : list (string * tree)) (s' : state) : Prop :=
  (exists c cs al, stack s = c :: cs /\ stack s' = scope_plus c m al :: cs /\
     forall b, used_block E s b -> In b (blocks s') /\ ~ In (b_base b) al) /\
  kept E s s' /\ same_rest s s'.

(** Numbers and pointers; not void. *)
Definition object_type (t : tree) : Prop := match t with D_T _ | D_T_PTR _ => True | _ => False end.

(** The variables of the expression [e] have the values given by [rho]. *)
Definition reads (E : env) (s : state) (rho : string -> Z) (e : expr) : Prop :=
  forall y, mentions e y -> number E s (lookup s y) (rho y).

(** The size of the type [t]; that of a structure or union is the one computed when its
    declaration was executed. *)
Inductive type_size (s : state) : tree -> Z -> Prop :=
| size_number c : type_size s (D_T c) (width c)
| size_pointer t : type_size s (D_T_PTR t) 8
| size_compound t c : view_comp s t = Some c -> cd_exp c = true -> type_size s t (cd_sz c).

(** The size of the object or type that is the value of an expression. *)
Inductive value_size (s : state) : tree -> Z -> Prop :=
| vs_array t p n : value_size s (T_LIVE_VAR (D_T_PTR t) p true n) n
| vs_var t p n k : type_size s t k -> value_size s (T_LIVE_VAR t p false n) k
| vs_comp d ms b k : type_size s d k -> value_size s (T_LIVE_COMPOUND d ms b) k
| vs_type t k : type_size s t k -> value_size s t k.

(** From [s] to [s'] an array of [n] bytes with elements of type [t] was made: its elements are the
    new object at [base], and [v] is the variable, a new object that holds this address. *)
Definition array_made (E : env) (s : state) (t : tree) (n : Z) (v : tree) (s' : state) : Prop :=
  exists p base, v = T_LIVE_VAR (D_T_PTR t) p true n /\ unsigned_at (mem s') p 8 = base /\
    new_object E s base n s' /\ new_object E s p 16 s' /\ (0 < n -> p + 16 <= base \/ base + n <= p).
