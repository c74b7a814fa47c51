(** Specifications of operators and statements with control flow; used by C07 - C12, C49. *)
From Coq Require Import ZArith List String Bool.
From Verif Require Import CInt Tree State Eval StepsFacts SpecRun.
Import ListNotations.
Local Open Scope string_scope.
Local Open Scope Z_scope.

(** The same outcome as [o], which is not a value, at another type. *)
Definition same_stop {A B} (o : res A) (r : res B) : Prop :=
  match o, r with
  | Jmp i s, Jmp i' s' => i = i' /\ s = s'
  | Die s, Die s' => s = s'
  | Abort s, Abort s' => s = s'
  | Exit n s, Exit n' s' => n = n' /\ s = s'
  | UB, UB => True
  | NoMemory n s, NoMemory n' s' => n = n' /\ s = s'
  | Unmodelled s, Unmodelled s' => s = s'
  | _, _ => False
  end.

(** Converting a value to an integer.  Reading a variable allocates a node first, which may
    run the collector. *)
Definition as_integer (E : env) (v : tree) (s : state) : res Z :=
  let s' := after_tick E s in
  match v with
  | T_INTEGER z => Ok z s
  | T_LIVE_VAR (D_T c) a _ _ =>
      if integer_type c
      then if valid s' a (width c) then Ok (as_long (value_at s' c a)) s' else UB
      else Die s
  | T_LIVE_VAR (D_T_PTR _) a _ _ =>
      if valid s' a 8 then Ok (as_long (unsigned_at (mem s') a 8)) s' else UB
  | NULL | T_LIVE_VAR NULL _ _ _ => UB
  | _ => Die s
  end.

(** The expression [e] has the integer outcome [r]. *)
Definition int_value (E : env) (s : state) (e : tree) (r : res Z) : Prop :=
  (exists v s1, runs E s e (Ok v s1) /\ r = as_integer E v s1) \/
  (exists o, runs E s e o /\ same_stop o r).

(** A new scope is opened (after allocating a node); the innermost scope is left. *)
Definition open_scope (E : env) (name : string) (s : state) : state :=
  let s := after_tick E s in
  set_stack (fun cs => mkctx (fresh s) name [] [] [] [] NULL false false :: cs)
    (set_fresh (fun n => n + 1) s).
Definition close_scope {A} (v : A) (s : state) : res A :=
  match stack s with
  | [] => UB
  | [_] => Die s
  | _ :: cs => Ok v (set_stack (fun _ => cs) s)
  end.
(** A break statement was executed with the innermost scope current. *)
Definition broke (s : state) : Prop := exists c cs, stack s = c :: cs /\ c_break c = true.

(** The value of a loop's condition: the expression is evaluated, and so is its value. *)
Definition loop_cond (E : env) (s : state) (c : tree) (r : res Z) : Prop :=
  (exists v s1, runs E s c (Ok v s1) /\ int_value E s1 v r) \/
  (exists o, runs E s c o /\ same_stop o r).

(** Iteration: [step] is what happens between the body and the next test. *)
Inductive loop (E : env) (name : string) (cond body : tree) (step : state -> res tree -> Prop)
    : state -> res tree -> Prop :=
| loop_cond_stops s o r : loop_cond E s cond o -> same_stop o r -> loop E name cond body step s r
| loop_done s z s1 : loop_cond E s cond (Ok z s1) -> ~ holds z ->
    loop E name cond body step s (Ok NULL s1)
| loop_body_stops s z s1 o r : loop_cond E s cond (Ok z s1) -> holds z ->
    runs_body E (open_scope E name s1) body o -> same_stop o r ->
    loop E name cond body step s r
| loop_break s z s1 s2 : loop_cond E s cond (Ok z s1) -> holds z ->
    runs_body E (open_scope E name s1) body (Ok tt s2) -> broke s2 ->
    loop E name cond body step s (Ok NULL s2)
| loop_no_scope s z s1 s2 r : loop_cond E s cond (Ok z s1) -> holds z ->
    runs_body E (open_scope E name s1) body (Ok tt s2) -> ~ broke s2 ->
    close_scope NULL s2 = r -> stops r ->
    loop E name cond body step s r
| loop_step_stops s z s1 s2 s3 o : loop_cond E s cond (Ok z s1) -> holds z ->
    runs_body E (open_scope E name s1) body (Ok tt s2) -> ~ broke s2 ->
    close_scope tt s2 = Ok tt s3 -> step s3 o -> stops o ->
    loop E name cond body step s o
| loop_next s z s1 s2 s3 v s4 r : loop_cond E s cond (Ok z s1) -> holds z ->
    runs_body E (open_scope E name s1) body (Ok tt s2) -> ~ broke s2 ->
    close_scope tt s2 = Ok tt s3 -> step s3 (Ok v s4) ->
    loop E name cond body step s4 r ->
    loop E name cond body step s r.
(** A while loop does nothing there. *)
Definition no_step (s : state) (o : res tree) : Prop := o = Ok NULL s.

(** A break statement was executed in [s]: the innermost scope is marked. *)
Definition marked (s : state) : state :=
  set_breaks (fun n => n + 1)
    (set_stack (fun cs => match cs with
       | [] => []
       | c :: cs => mkctx (c_id c) (c_name c) (c_idmap c) (c_structs c) (c_unions c) (c_allocs c)
                      (c_retval c) true (c_isfn c) :: cs
       end) s).

(** [loop_stmt name c b t]: [t] is a while loop, or the part of a for loop that follows the
    initialiser, with condition [c] and body [b]. *)
Inductive loop_stmt : string -> tree -> tree -> tree -> Prop :=
| loop_stmt_while c b : loop_stmt "While Loop" c b (T_LOOP_WHILE c b)
| loop_stmt_for c a b : loop_stmt "For Loop" c b (T_LOOP_FOR NULL c a b).
