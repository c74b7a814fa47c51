(** Scripts: main, the arguments and the end of the process; used by C40 - C42. *)
From Coq Require Import ZArith List String Bool.
From Verif Require Import CInt Tree State Eval CScript StepsFacts SpecRun SpecNames SpecTypes SpecExpr SpecVars SpecPtr SpecControl SpecStmt.
Import ListNotations.
Local Open Scope string_scope.
Local Open Scope Z_scope.
Local Open Scope list_scope.

(** [s] is the state in which the interpreter starts to work on the script. *)
Definition started (E : env) (s : state) : Prop :=
  exists m ext, start_blocks ext /\ eval_init E (start_state m ext) = Ok tt s.

(** The script with top-level items [l] and arguments at the addresses [argv], run from the state [s],
    has the outcome [r]: [Ok n] when main of the interpreter returns n. *)
Definition script (E : env) (s : state) (l : list tree) (argv : list Z) (r : res Z) : Prop :=
  r <> Fuel /\ exists n, evaluate_cscript E n (Items l) false argv s = r.

(** Making argc and argv has the outcome [r]; C42 says what that means. *)
Definition arguments (E : env) (s : state) (argv : list Z) (r : res unit) : Prop :=
  r <> Fuel /\ exists n, create_arguments E n argv s = r.

(** What an argument vector can be: an int number of 64-bit addresses. *)
Definition argument_vector (argv : list Z) : Prop :=
  Z.of_nat (List.length argv) < 2 ^ 31 /\ Forall (fun p => 0 <= p < 2 ^ 64) argv.

(** The item declares a function main with [n] parameters, as its first declarator. *)
Inductive declares_main : tree -> nat -> Prop :=
| dm_first l specs ps rt body ds : declares_main
    (T_DECL l specs (CHAIN_HEAD (T_FN (T_IDENTIFIER "main") ps rt body :: ds))) (List.length (chain_elems ps)).

(** The item is a declaration, as the parser makes them: without or with a list of declarators. *)
Definition declaration (i : tree) : Prop :=
  exists l specs ds, i = T_DECL l specs ds /\ (ds = NULL \/ exists d ds', ds = CHAIN_HEAD (d :: ds')).
(** The item is a statement. *)
Definition statement (i : tree) : Prop := forall l specs ds, i <> T_DECL l specs ds.
(** The items of a script. *)
Definition top_level (l : list tree) : Prop := Forall (fun i => declaration i \/ statement i) l.

(** One of the items declares main. *)
Definition has_main (l : list tree) : Prop := exists i n, In i l /\ declares_main i n.
(** The number of parameters of all the declarations of main in the script. *)
Inductive main_parameters : list tree -> nat -> Prop :=
| mp_nil : main_parameters [] 0
| mp_main i l n k : declares_main i n -> main_parameters l k -> main_parameters (i :: l) (n + k)
| mp_other i l k : (forall n, ~ declares_main i n) -> main_parameters l k -> main_parameters (i :: l) k.

(** The call of main. *)
Definition call_main (k : nat) : tree :=
  T_FN_CALL (T_IDENTIFIER "main")
    (match k with
     | O => NULL
     | S O => CHAIN_HEAD [T_IDENTIFIER "argc"]
     | _ => CHAIN_HEAD [T_IDENTIFIER "argc"; T_IDENTIFIER "argv"]
     end).

(** How the process ends after the items were executed with outcome [o]: with the result 0 when they have
    all been executed or one of them was a break; a jump is a return into a function that is no longer
    active. *)
Inductive ended : res unit -> res Z -> Prop :=
| end_ok s : ended (Ok tt s) (Ok 0 s)
| end_jmp i s : ended (Jmp i s) UB
| end_die s : ended (Die s) (Die s)
| end_abort s : ended (Abort s) (Abort s)
| end_exit n s : ended (Exit n s) (Exit n s)
| end_ub : ended UB UB
| end_memory n s : ended (NoMemory n s) (NoMemory n s)
| end_unmodelled s : ended (Unmodelled s) (Unmodelled s).

(** To run the script [l] from [s] is to execute the items [ts] one after the other from the state [s']. *)
Definition executes (E : env) (s : state) (l : list tree) (argv : list Z) (ts : list tree) (s' : state) : Prop :=
  forall r, script E s l argv r <-> exists o, block E ts s' o /\ ended o r.

(** The exit status of the script. *)
Definition script_status (E : env) (s : state) (l : list tree) (argv : list Z) (n : Z) : Prop :=
  exists r, script E s l argv r /\ status r = Some n.

(** argc is an int variable with the number of arguments; argv is an array of pointers to char, and its
    elements are the addresses. *)
Definition has_arguments (E : env) (s : state) (argv : list Z) : Prop :=
  let n := Z.of_nat (List.length argv) in
  (exists a, means s "argc" (T_LIVE_VAR (D_T D_T_INT) a false 0) /\ storage E s a 4 /\ value_at s D_T_INT a = n) /\
  exists p base, means s "argv" (T_LIVE_VAR (D_T_PTR (D_T_PTR (D_T D_T_CHAR))) p true (8 * n)) /\
    storage E s p 8 /\ unsigned_at (mem s) p 8 = base /\ storage E s base (8 * n) /\ 0 < base /\ base + 8 * n <= 2 ^ 63 /\
    forall i q, nth_error argv i = Some q -> unsigned_at (mem s) (base + 8 * Z.of_nat i) 8 = q.

(** Every byte in use is still in use and has the same value; so are all objects. *)
Definition untouched (E : env) (s s' : state) : Prop :=
  (forall a n, 0 < n -> storage E s a n -> storage E s' a n) /\ (forall a, storage E s a 1 -> mem s' a = mem s a).

(** Apart from memory, scopes, the record of initialised declarations and identities, nothing is different; in particular nothing external was called. *)
Definition undisturbed (s s' : state) : Prop :=
  incl s' = incl s /\ includes s' = includes s /\ ov_ret s' = ov_ret s /\ statics s' = statics s /\ comps s' = comps s /\
  trace s' = trace s /\ breaks s' = breaks s.
