(** Variables: storing into them and making new ones; used by C02 - C06, C15, C17, C51, C52. *)
From Coq Require Import ZArith List String Bool.
From Verif Require Import CInt Tree State StepsFacts SpecRun SpecTypes SpecExpr.
Import ListNotations.
Local Open Scope Z_scope.

(** From [s] to [s'] the [n] bytes at [a] may have changed and garbage may have been collected;
    nothing else happened. *)
Definition only_writes (E : env) (s : state) (a n : Z) (s' : state) : Prop :=
  (forall x, x < a \/ a + n <= x -> mem s' x = mem s x) /\
  only_gc E (set_mem (fun _ => mem s') s) s'.

(** What is left of an integer when it is stored: [w] is congruent to [v] modulo 2^63 and has
    the same sign. *)
Definition clipped (v w : Z) : Prop :=
  (exists q, w = v + q * 2 ^ 63) /\ (0 <= v -> 0 <= w < 2 ^ 63) /\ (v < 0 -> - 2 ^ 63 <= w < 0).

(** The assignment node [l] with left-hand side [lhs] has not been given another left-hand side
    by the execution of a declaration. *)
Definition plain (s : state) (l : Z) (lhs : tree) : Prop :=
  zfind l (ov_asn s) = None \/ zfind l (ov_asn s) = Some lhs.

(** The object of [n] bytes at [a] is new in [s']: it is in use, everything that was in use in
    [s] still is, and does not overlap it. *)
Definition new_object (E : env) (s : state) (a n : Z) (s' : state) : Prop :=
  storage E s' a n /\ 0 < a /\ a + n <= 2 ^ 63 /\
  forall a' n', 0 < n' -> storage E s a' n' -> storage E s' a' n' /\ (a' + n' <= a \/ a + n <= a').

(** The parts of the state other than memory, blocks and scopes. *)
Definition same_rest (s s' : state) : Prop :=
  incl s' = incl s /\ includes s' = includes s /\ ov_ret s' = ov_ret s /\ ov_asn s' = ov_asn s /\
  statics s' = statics s /\ comps s' = comps s /\ fresh s' = fresh s /\ trace s' = trace s /\ breaks s' = breaks s.

(** The scope [c] after it has been given the object at [a] and the names [m]. *)
Definition scope_with (c : ctx) (m : list (string * tree)) (a : Z) : ctx :=
  mkctx (c_id c) (c_name c) (c_idmap c ++ m) (c_structs c) (c_unions c) (c_allocs c ++ [a])
    (c_retval c) (c_break c) (c_isfn c).

(** From [s] to [s'] the current scope got a new 16-byte object at [a] and the names [m]. *)
Definition gains (E : env) (s : state) (m : list (string * tree)) (a : Z) (s' : state) : Prop :=
  (exists c cs, stack s = c :: cs /\ stack s' = scope_with c m a :: cs) /\
  new_object E s a 16 s' /\ same_rest s s'.

(** From [s] to [s'] the variable [x] of type [t] was declared: its storage is new, with
    undetermined contents. *)
Definition declared (E : env) (s : state) (x : string) (t : tree) (a : Z) (s' : state) : Prop :=
  gains E s [(x, T_LIVE_VAR t a false 0)] a s' /\ mem s' = mem s.

(** The declarator of [x] with [n] stars. *)
Fixpoint stars (n : nat) (d : tree) : tree :=
  match n with O => d | S n => T_POINTER (stars n d) end.
(** The type [t] with [n] stars. *)
Fixpoint pointer_to (n : nat) (t : tree) : tree :=
  match n with O => t | S n => D_T_PTR (pointer_to n t) end.

(** No typedef, extern or static. *)
Definition no_storage_class (l : list spec) : Prop := ~ In T_TYPEDEF l /\ ~ In T_EXTERN l /\ ~ In T_STATIC l.

(** The types for which this file says something about declarations: numbers, pointers, void. *)
Definition scalar (t : tree) : Prop :=
  match t with D_T _ | D_T_PTR _ | D_T_VOID => True | _ => False end.

(** From [s] to [s'] the variables [ds], given with their number of stars, were declared one
    after the other with the type [t]. *)
Inductive declared_all (E : env) (t : tree) : state -> list (nat * string) -> state -> Prop :=
| all_nil s s' : only_gc E s s' -> declared_all E t s [] s'
| all_cons n x ds s a s1 s2 : declared E s x (pointer_to n t) a s1 -> declared_all E t s1 ds s2 ->
    declared_all E t s ((n, x) :: ds) s2.

(** Expressions of SpecExpr.v whose value is computed, not just read from a variable. *)
Fixpoint computed (e : SpecExpr.expr) : Prop :=
  match e with
  | SpecExpr.Var _ => False
  | SpecExpr.Cond _ a b => computed a /\ computed b
  | SpecExpr.Comma _ b => computed b
  | SpecExpr.Group a => computed a
  | _ => True
  end.

(** The number of type [t] stored at [a]: as a number of that type, for pointers as an
    unsigned number. *)
Definition scalar_at (s : state) (t : tree) (a : Z) (z : Z) : Prop :=
  match t with
  | D_T c => integer_type c = true /\ z = value_at s c a
  | D_T_PTR _ => z = unsigned_at (mem s) a 8
  | _ => False
  end.
(** [w] is what is left of [z] in a variable of type [t]. *)
Definition fits (t : tree) (z w : Z) : Prop :=
  match t with
  | D_T c => wraps c z w
  | D_T_PTR _ => w = z mod 2 ^ 64
  | _ => False
  end.
(** Size of a variable of type [t]. *)
Definition scalar_width (t : tree) : Z := match t with D_T c => width c | _ => 8 end.
(** Integers and pointers. *)
Definition int_or_pointer (t : tree) : Prop :=
  match t with D_T c => integer_type c = true | D_T_PTR _ => True | _ => False end.
