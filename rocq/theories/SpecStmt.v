(** Specifications of statement lists, return and function calls; used by C12 - C18, C49, C50. *)
From Coq Require Import ZArith List String Bool.
From Verif Require Import CInt Tree State Eval StepsFacts SpecRun SpecControl.
Import ListNotations.
Local Open Scope Z_scope.

(** The value of an executed return statement: what was recorded for it. *)
Definition returned (s : state) (l : Z) (operand : tree) : tree :=
  match zfind l (ov_ret s) with Some v => v | None => operand end.

(** The return statement [l] has recorded the value [v]. *)
Definition recorded (s : state) (l : Z) (v : tree) : Prop := zfind l (ov_ret s) = Some v.

(** Values: evaluating them again gives themselves. *)
Inductive settled : tree -> Prop :=
| settled_integer z : settled (T_INTEGER z)
| settled_float n d : settled (T_FLOAT n d)
| settled_string x : settled (T_STRING x)
| settled_variable t a b n : settled (T_LIVE_VAR t a b n)
| settled_compound d m b : settled (T_LIVE_COMPOUND d m b)
| settled_function d a r b : settled (T_FN d a r b)
| settled_nothing : settled NULL.

(** The innermost function activation: its identity. *)
Fixpoint activation (cs : list ctx) : option Z :=
  match cs with
  | [] => None
  | c :: cs => if c_isfn c then Some (c_id c) else activation cs
  end.

(** [v] is handed to the innermost function activation. *)
Fixpoint give (v : tree) (cs : list ctx) : list ctx :=
  match cs with
  | [] => []
  | c :: cs => if c_isfn c
               then mkctx (c_id c) (c_name c) (c_idmap c) (c_structs c) (c_unions c) (c_allocs c)
                      v (c_break c) (c_isfn c) :: cs
               else c :: give v cs
  end.

(** The outcome of returning [v]: a jump to the innermost activation, or the end of the
    process with the value as exit status if there is none. *)
Definition return_to (E : env) (v : tree) (s : state) (r : res unit) : Prop :=
  match activation (stack s) with
  | Some i => r = Jmp i (set_stack (give v) s)
  | None => (exists z s1, int_value E s v (Ok z s1) /\ r = Exit (smod 32 z) s1) \/
            (exists o, int_value E s v o /\ same_stop o r)
  end.

(** A value that ends a statement list. *)
Definition ends_list (v : tree) : bool :=
  match v with T_RETURN _ _ | T_BREAK => true | _ => false end.

(** Execution of the items of a braced block, one after the other. *)
Inductive block (E : env) : list tree -> state -> res unit -> Prop :=
| block_end s : block E [] s (Ok tt s)
| block_next i l s v s1 r : runs E s i (Ok v s1) -> ends_list v = false ->
    block E l s1 r -> block E (i :: l) s r
| block_break i l s s1 : runs E s i (Ok T_BREAK s1) -> block E (i :: l) s (Ok tt s1)
| block_return i l s lbl e s1 r : runs E s i (Ok (T_RETURN lbl e) s1) ->
    return_to E (returned s1 lbl e) s1 r -> block E (i :: l) s r
| block_stops i l s o r : runs E s i o -> same_stop o r -> block E (i :: l) s r.

(** The items [l] all ran to completion. *)
Inductive items (E : env) : list tree -> state -> state -> Prop :=
| items_nil s : items E [] s s
| items_cons i l s v s1 s2 : runs E s i (Ok v s1) -> ends_list v = false ->
    items E l s1 s2 -> items E (i :: l) s s2.

(** [returns E s t i v s']: running the body [t] executes a return statement, nested to any
    depth in braced ifs and loops, whose operand has the value [v], for the activation [i];
    the state is then [s'].  [returns_in] is the same for a single statement. *)
Inductive returns (E : env) : state -> tree -> Z -> tree -> state -> Prop :=
| ret_here pre l e post s s1 i v s2 : items E pre s s1 ->
    runs E s1 (T_RETURN l e) (Ok (T_RETURN l e) s2) -> v = returned s2 l e ->
    activation (stack s2) = Some i ->
    returns E s (CHAIN_HEAD (pre ++ T_RETURN l e :: post)) i v (set_stack (give v) s2)
| ret_nested pre t post s s1 i v s2 : items E pre s s1 -> returns_in E s1 t i v s2 ->
    returns E s (CHAIN_HEAD (pre ++ t :: post)) i v s2
with returns_in (E : env) : state -> tree -> Z -> tree -> state -> Prop :=
| ret_if c a b s z s1 arm i v s2 : int_value E s c (Ok z s1) ->
    (holds z /\ arm = a \/ ~ holds z /\ arm = b) ->
    returns E (open_scope E "If statement" s1) arm i v s2 ->
    returns_in E s (T_IF c a b) i v s2
| ret_while_now c b s z s1 i v s2 : loop_cond E s c (Ok z s1) -> holds z ->
    returns E (open_scope E "While Loop" s1) b i v s2 ->
    returns_in E s (T_LOOP_WHILE c b) i v s2
| ret_while_later c b s z s1 s2 s3 i v s4 : loop_cond E s c (Ok z s1) -> holds z ->
    runs_body E (open_scope E "While Loop" s1) b (Ok tt s2) -> ~ broke s2 ->
    close_scope tt s2 = Ok tt s3 ->
    returns_in E s3 (T_LOOP_WHILE c b) i v s4 ->
    returns_in E s (T_LOOP_WHILE c b) i v s4
| ret_for_start x c a b s w s1 i v s2 : x <> NULL -> runs E s x (Ok w s1) ->
    returns_in E s1 (T_LOOP_FOR NULL c a b) i v s2 ->
    returns_in E s (T_LOOP_FOR x c a b) i v s2
| ret_for_now c a b s z s1 i v s2 : loop_cond E s c (Ok z s1) -> holds z ->
    returns E (open_scope E "For Loop" s1) b i v s2 ->
    returns_in E s (T_LOOP_FOR NULL c a b) i v s2
| ret_for_later c a b s z s1 s2 s3 w s4 i v s5 : loop_cond E s c (Ok z s1) -> holds z ->
    runs_body E (open_scope E "For Loop" s1) b (Ok tt s2) -> ~ broke s2 ->
    close_scope tt s2 = Ok tt s3 -> runs E s3 a (Ok w s4) ->
    returns_in E s4 (T_LOOP_FOR NULL c a b) i v s5 ->
    returns_in E s (T_LOOP_FOR NULL c a b) i v s5.

(** The scope of a new activation of a function. *)
Definition open_activation (E : env) (name : string) (s : state) : state :=
  let s := after_tick E s in
  set_stack (fun cs => mkctx (fresh s) name [] [] [] [] NULL false true :: cs)
    (set_fresh (fun n => n + 1) s).

(** Parameters are declared and initialised one after the other, each argument expression
    being evaluated just before its parameter is declared. *)
Inductive params_bound (E : env) : list tree -> list tree -> state -> state -> Prop :=
| pb_nil s : params_bound E [] [] s s
| pb_cons d ds x xs s v s1 p s2 w s3 s4 :
    runs E s x (Ok v s1) -> runs E s1 d (Ok p s2) ->
    (let s2' := after_tick E s2 in
     runs E (set_fresh (fun n => n + 1) s2') (T_ASSIGN (fresh s2') p v) (Ok w s3)) ->
    params_bound E ds xs s3 s4 ->
    params_bound E (d :: ds) (x :: xs) s s4.

(** From state [s], where the function is about to be called, to the state in which its body
    starts. *)
Definition entered (E : env) (name : string) (params args : tree) (s s' : state) : Prop :=
  (params = NULL /\ s' = open_activation E name s) \/
  (params <> NULL /\ params_bound E (chain_elems params) (chain_elems args) (open_activation E name s) s').

(** The current scope is the one with identity [i]. *)
Definition current (s : state) (i : Z) : Prop := exists c cs, stack s = c :: cs /\ c_id c = i.
