(** Vocabulary of the property statements about the evaluator: outcomes of evaluations,
    reachable states, variables and their storage. *)
From Coq Require Import ZArith List String Bool.
From Verif Require Import CInt Tree State Eval StepsFacts.
Import ListNotations.
Local Open Scope Z_scope.

(** Evaluating [t] in state [s] has outcome [r]: some recursion depth suffices. *)
Definition runs (E : env) (s : state) (t : tree) (r : res tree) : Prop :=
  r <> Fuel /\ exists n, evaluate_expr E n t s = r.

(** The same for a block or single statement, as the body of an if, loop or function. *)
Definition runs_body (E : env) (s : state) (t : tree) (r : res unit) : Prop :=
  r <> Fuel /\ exists n, evaluate_stmts E (K E n) t s = r.

(** malloc has no [n] bytes in state [s]: it returns NULL or breaks its contract. *)
Definition refuses (E : env) (n : Z) (s : state) : Prop := forall a s', malloc E n s <> Ok a s'.

(** The evaluation of [t] in state [s] needs [n] bytes of memory that malloc does not have. *)
Definition out_of_memory (E : env) (s : state) (t : tree) (n : Z) : Prop :=
  exists s', runs E s t (NoMemory n s') /\ refuses E n s'.

(** Memory given to the process before the interpreter starts: separate blocks that the
    collector does not own. *)
Definition start_blocks (ext : list block) : Prop :=
  ForallOrdPairs (fun b b' => disjoint_blocks (b_base b) (b_size b) b' = true) ext /\
  Forall (fun b => b_tracked b = false) ext.

(** States that can occur: after start-up, and after any elementary state change made by
    the evaluator (StepsFacts.v, [step]; every run is a sequence of them). *)
Inductive reachable (E : env) : state -> Prop :=
| reach_init m ext s : start_blocks ext -> eval_init E (start_state m ext) = Ok tt s -> reachable E s
| reach_step s s' : reachable E s -> step E s s' -> reachable E s'.

(** What a name means in a state. *)
Definition lookup (s : state) (x : string) : tree :=
  resolve_maps x (map c_idmap (scope_ctxs s)).

(** The [n] bytes at [a] lie inside one allocation that belongs to a scope on the stack. *)
Definition owned (s : state) (a n : Z) : Prop :=
  exists c base size, In c (stack s) /\ In base (c_allocs c) /\
    In (mkblock base size true) (blocks s) /\ base <= a /\ a + n <= base + size.

(** The [n] bytes at [a] lie inside one allocated block that the collector cannot free now:
    memory from outside the interpreter, or kept by a scope, header or static variable. *)
Definition storage (E : env) (s : state) (a n : Z) : Prop :=
  exists b, In b (blocks s) /\ b_base b <= a /\ a + n <= b_base b + b_size b /\
    (b_tracked b = false \/ In (b_base b) (roots E s)).

(** An allocated block that the collector cannot free now. *)
Definition used_block (E : env) (s : state) (b : block) : Prop :=
  In b (blocks s) /\ (b_tracked b = false \/ In (b_base b) (roots E s)).

(** The two states differ at most by the effects of garbage collection. *)
Record same_but_gc (s s' : state) : Prop := {
  sg_mem : mem s' = mem s;
  sg_stack : stack s' = stack s;
  sg_incl : incl s' = incl s;
  sg_includes : includes s' = includes s;
  sg_ov_ret : ov_ret s' = ov_ret s;
  sg_ov_asn : ov_asn s' = ov_asn s;
  sg_statics : statics s' = statics s;
  sg_comps : comps s' = comps s;
  sg_fresh : fresh s' = fresh s;
  sg_trace : trace s' = trace s;
  sg_breaks : breaks s' = breaks s;
  sg_blocks : forall b, In b (blocks s') -> In b (blocks s)
}.

(** The C types: size in bytes, which are integer types, which of those are signed
    (x86-64 Linux). *)
Definition width (c : ctype) : Z :=
  match c with
  | D_T_CHAR | D_T_UCHAR => 1
  | D_T_SHORT | D_T_USHORT => 2
  | D_T_INT | D_T_UINT | D_T_FLOAT => 4
  | D_T_LONG | D_T_LONGLONG | D_T_ULONG | D_T_ULONGLONG | D_T_DOUBLE => 8
  | D_T_LONGDOUBLE => 16
  end.
Definition integer_type (c : ctype) : bool :=
  match c with
  | D_T_FLOAT | D_T_DOUBLE | D_T_LONGDOUBLE => false
  | _ => true
  end.
Definition signed (c : ctype) : bool :=
  match c with
  | D_T_CHAR | D_T_SHORT | D_T_INT | D_T_LONG | D_T_LONGLONG => true
  | _ => false
  end.

(** The number in binary, low byte first, in the [n] bytes at [a]. *)
Fixpoint unsigned_at (m : Z -> Z) (a : Z) (n : nat) : Z :=
  match n with
  | O => 0
  | S n => m a mod 256 + 256 * unsigned_at m (a + 1) n
  end.

(** The C value of an integer variable of type [c] at [a]: its bytes in two's complement
    (signed types) or binary (unsigned types). *)
Definition value_at (s : state) (c : ctype) (a : Z) : Z :=
  let u := unsigned_at (mem s) a (Z.to_nat (width c)) in
  if signed c && (2 ^ (8 * width c - 1) <=? u) then u - 2 ^ (8 * width c) else u.

(** [w] is the value of type [c] that is congruent to [v]. *)
Definition wraps (c : ctype) (v w : Z) : Prop :=
  let n := 8 * width c in
  (exists q, w = v + q * 2 ^ n) /\
  if signed c then - 2 ^ (n - 1) <= w < 2 ^ (n - 1) else 0 <= w < 2 ^ n.

(** From [s] to [s'] nothing happened but garbage collection, and that freed no storage that
    was in use. *)
Definition only_gc (E : env) (s s' : state) : Prop :=
  same_but_gc s s' /\ (forall a n, storage E s a n -> storage E s' a n) /\
  (forall b, used_block E s b -> In b (blocks s')).

(** A 64-bit pattern, given as a signed or unsigned number, read as a signed number. *)
Definition as_long (v : Z) : Z := if v <? 2 ^ 63 then v else v - 2 ^ 64.

(** The integer that the value [t] of an expression stands for: a constant, or an integer or
    pointer variable whose storage is in use. *)
Inductive number (E : env) (s : state) : tree -> Z -> Prop :=
| number_const z : number E s (T_INTEGER z) z
| number_var c a arr n : integer_type c = true -> storage E s a (width c) ->
    number E s (T_LIVE_VAR (D_T c) a arr n) (as_long (value_at s c a))
| number_ptr t a arr n : storage E s a 8 ->
    number E s (T_LIVE_VAR (D_T_PTR t) a arr n) (as_long (unsigned_at (mem s) a 8)).

(** The condition of an if, loop or ?: holds: C's rule for values of type long. *)
Definition holds (z : Z) : Prop := ~ (0 <= z /\ exists k, z = k * 2 ^ 63).

(** The outcome is not a value. *)
Definition stops {A} (r : res A) : Prop := forall a s, r <> Ok a s.
