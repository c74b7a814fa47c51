(** Calls of external functions: how the arguments are passed; used by C29. *)
From Coq Require Import ZArith List String Bool.
From Verif Require Import CInt Tree State StepsFacts SpecRun SpecNames SpecVars SpecPtr.
Import ListNotations.
Local Open Scope Z_scope.
Local Open Scope list_scope.

(** The arguments of a call in the syntax tree. *)
Definition args_tree (ts : list tree) : tree := match ts with [] => NULL | _ => CHAIN_HEAD ts end.

(** [evaluated E s ts vs s']: the trees [ts] are evaluated one after the other, from left to right,
    and have the values [vs]. *)
Inductive evaluated (E : env) : state -> list tree -> list tree -> state -> Prop :=
| evaluated_nil s s' : only_gc E s s' -> evaluated E s [] [] s'
| evaluated_cons s s1 t v s2 ts vs s' : only_gc E s s1 -> runs E s1 t (Ok v s2) -> evaluated E s2 ts vs s' ->
    evaluated E s (t :: ts) (v :: vs) s'.

(** The type with which a value of type [c] is passed: its own type ([long long] is the same as [long]),
    after the default argument promotions in the variadic part. *)
Definition own_type (c : ctype) : ctype :=
  match c with D_T_LONGLONG => D_T_LONG | D_T_ULONGLONG => D_T_ULONG | _ => c end.
Definition promoted_type (c : ctype) : ctype :=
  match c with
  | D_T_CHAR | D_T_SHORT => D_T_INT
  | D_T_UCHAR | D_T_USHORT => D_T_UINT
  | D_T_FLOAT => D_T_DOUBLE
  | _ => own_type c
  end.
Definition passed_type (variadic : bool) (c : ctype) : ctype := if variadic then promoted_type c else own_type c.

(** [passes E s variadic v a]: in the state [s] the value [v] is passed as [a].  A string is passed as
    a pointer to its characters, a pointer as a pointer; [None] is the type of pointers. *)
Inductive passes (E : env) (s : state) (variadic : bool) : tree -> arg -> Prop :=
| pass_string x : passes E s variadic (T_STRING x) (AStr x)
| pass_pointer t a arr n : passes E s variadic (T_LIVE_VAR (D_T_PTR t) a arr n) (AVal None (unsigned_at (mem s) a 8))
| pass_constant z w : wraps D_T_INT z w -> passes E s variadic (T_INTEGER z) (AVal (Some D_T_INT) w)
| pass_float m d : passes E s variadic (T_FLOAT m d) (AVal (Some D_T_DOUBLE) (e_fp_lit E m d))
| pass_integer c a arr n : integer_type c = true ->
    passes E s variadic (T_LIVE_VAR (D_T c) a arr n) (AVal (Some (passed_type variadic c)) (value_at s c a))
| pass_floating c a arr n : integer_type c = false ->
    let bits := unsigned_at (mem s) a (Z.to_nat (width c)) in
    passes E s variadic (T_LIVE_VAR (D_T c) a arr n)
      (AVal (Some (passed_type variadic c))
         (match c with D_T_FLOAT => if variadic then e_fp_cast E D_T_FLOAT D_T_DOUBLE bits else bits | _ => bits end)).

(** The values that can be passed. *)
Definition passable (v : tree) : Prop :=
  match v with
  | T_STRING _ | T_INTEGER _ | T_FLOAT _ _ | T_LIVE_VAR (D_T _) _ _ _ | T_LIVE_VAR (D_T_PTR _) _ _ _ => True
  | _ => False
  end.

(** The position of [...] in the parameters, if there is one: the arguments from there on are the
    variadic part. *)
Inductive ellipsis : list tree -> option nat -> Prop :=
| ellipsis_none ps : ~ In T_VARIADIC ps -> ellipsis ps None
| ellipsis_at ps qs : ~ In T_VARIADIC ps -> ellipsis (ps ++ T_VARIADIC :: qs) (Some (List.length ps)).
Definition in_variadic (p : option nat) (i : nat) : bool := match p with Some p => Nat.leb p i | None => false end.

(** [passed E p i s vs args s']: the values [vs], the first of which is argument number [i], are passed
    as [args], in order; on the way at most temporary variables are made. *)
Inductive passed (E : env) (p : option nat) : nat -> state -> list tree -> list arg -> state -> Prop :=
| passed_nil i s : passed E p i s [] [] s
| passed_cons i s v a s1 vs args s' : passes E s (in_variadic p i) v a -> only_new E s [] s1 ->
    passed E p (S i) s1 vs args s' -> passed E p i s (v :: vs) (a :: args) s'.

(** The calls that external code has made or that were made to it from the state [s] on, newest first. *)
Definition calls_since (s s' : state) (l : list event) : Prop := trace s' = l ++ trace s.

(** [function E s f v s']: the function designator [f] stands for [v].  A function declared [extern] is
    looked up first, which gives a pointer to it. *)
Inductive function (E : env) (s : state) (f : tree) (v : tree) (s' : state) : Prop :=
| function_plain : runs E s f (Ok v s') -> (forall g, v <> T_EXT_FUNC g) -> function E s f v s'
| function_extern g s1 : runs E s f (Ok (T_EXT_FUNC g) s1) -> runs E s1 (T_EXT_FUNC g) (Ok v s') -> function E s f v s'.

(** The call ended with [r] before the function was entered: the evaluation of an argument did not
    give a value, or there was no memory for the result or a promoted argument, or the program
    exits with an error since there are more than 32 arguments or one of them, or the result, is not
    of a scalar type. *)
Inductive not_entered (E : env) (s : state) (ts : list tree) (rt : tree) : res tree -> Prop :=
| ne_argument ts1 t ts2 vs s1 s2 r : ts = ts1 ++ t :: ts2 -> evaluated E s ts1 vs s1 -> only_gc E s1 s2 ->
    runs E s2 t r -> stops r -> not_entered E s ts rt r
| ne_memory vs s1 s' : evaluated E s ts vs s1 -> calls_since s1 s' [] -> refuses E 16 s' -> not_entered E s ts rt (NoMemory 16 s')
| ne_error vs s1 s' : evaluated E s ts vs s1 -> calls_since s1 s' [] ->
    (32 < List.length ts)%nat \/ (exists v, In v vs /\ ~ passable v) \/ (rt <> D_T_VOID /\ ~ object_type rt) ->
    not_entered E s ts rt (Die s').

(** A value that can be passed, and that is in memory which is in use. *)
Definition storable (E : env) (s : state) (v : tree) : Prop :=
  match v with
  | T_STRING _ | T_INTEGER _ | T_FLOAT _ _ => True
  | T_LIVE_VAR (D_T c) a _ _ => storage E s a (width c)
  | T_LIVE_VAR (D_T_PTR _) a _ _ => storage E s a 8
  | _ => False
  end.

(** A constant or a variable, with its value. *)
Inductive simple (E : env) (s : state) : tree -> tree -> Prop :=
| simple_constant t : (exists z, t = T_INTEGER z) \/ (exists x, t = T_STRING x) \/ (exists m d, t = T_FLOAT m d) -> simple E s t t
| simple_variable x v : means s x v -> storable E s v -> simple E s (T_IDENTIFIER x) v.

(** The arguments [args] are the values [vs] as they are passed in the state [s]. *)
Definition passed_as (E : env) (s : state) (p : option nat) (vs : list tree) (args : list arg) : Prop :=
  List.length args = List.length vs /\
  forall i v a, nth_error vs i = Some v -> nth_error args i = Some a -> passes E s (in_variadic p i) v a.

(** The function at [addr] is not one of the interpreter, and when called from [s] on it returns
    [bits] at once. *)
Definition returns_at_once (E : env) (s : state) (addr bits : Z) : Prop :=
  addr <> 0 /\ addr <> e_alloca E /\ (forall c, In c (closures s) -> cl_addr c <> addr) /\
  forall args s', e_ext E addr args s' 0 = EDone bits.

(** [v] is the result of type [rt]: a new variable with the value that the function returned, or
    nothing. *)
Inductive result (E : env) (s s' : state) (bits : Z) : tree -> tree -> Prop :=
| result_void : result E s s' bits D_T_VOID NULL
| result_int c a : integer_type c = true -> new_object E s a 16 s' -> wraps c bits (value_at s' c a) ->
    result E s s' bits (D_T c) (T_LIVE_VAR (D_T c) a false 0)
| result_pointer t a : new_object E s a 16 s' -> unsigned_at (mem s') a 8 = bits mod 2 ^ 64 ->
    result E s s' bits (D_T_PTR t) (T_LIVE_VAR (D_T_PTR t) a false 0).
Definition result_type (rt : tree) : Prop :=
  match rt with D_T_VOID | D_T_PTR _ => True | D_T c => integer_type c = true | _ => False end.
