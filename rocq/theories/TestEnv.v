(** A concrete environment and initial state, used only for the examples that accompany
    the theorems; nothing here models bic. *)
From Coq Require Import ZArith List String Bool.
From Verif Require Import CInt Tree SpecResolver State Eval.
Import ListNotations.
Local Open Scope Z_scope.

(** First address above all blocks, 16-aligned. *)
Definition next_addr (s : state) : Z :=
  16 * (1 + fold_left Z.max (map (fun b => (b_base b + b_size b + 15) / 16) (blocks s)) 256).

(** malloc takes the next address above all blocks; everything unreachable is collected; "puts" and
    "strcpy" are external functions that return 7. *)
Definition env0 : env := mkenv
  (fun s _ => next_addr s)
  (fun s => map b_base (blocks s))
  (fun _ => [])
  (fun _ => true)
  (fun x => if String.eqb x "puts" then 7000 else if String.eqb x "strcpy" then 7001 else 0)
  9001 9002 9003
  (fun _ _ _ _ => EDone 7)
  (fun _ => None)
  (fun _ => [])
  (fun _ _ => 0) (fun _ _ v => v) (fun _ v => v) (fun _ v => v).

(** The state after eval_init. *)
Definition s0 : state :=
  match eval_init env0 (start_state (fun _ => 170) []) with
  | Ok _ s => s
  | _ => start_state (fun _ => 0) []
  end.

(** Syntax abbreviations. *)
Definition id (x : string) : tree := T_IDENTIFIER x.
Definition num (z : Z) : tree := T_INTEGER z.
Definition specs (l : list spec) : tree := CHAIN_HEAD (map T_SPEC l).
Definition int_specs : tree := specs [T_INT_TS].
(** [int x;] *)
Definition decl_int (x : string) : tree := T_DECL 0 int_specs (CHAIN_HEAD [id x]).
(** [int x = e;] with node identities [l]. *)
Definition init_int (l : Z) (x : string) (e : tree) : tree :=
  T_DECL l int_specs (CHAIN_HEAD [T_ASSIGN l (id x) e]).
(** [int f(params) { body }] *)
Definition fn_int (l : Z) (f : string) (params : tree) (body : list tree) : tree :=
  T_DECL l int_specs (CHAIN_HEAD [T_FN (id f) params NULL (CHAIN_HEAD body)]).
Definition call (f : string) (args : list tree) : tree :=
  T_FN_CALL (id f) (match args with [] => NULL | _ => CHAIN_HEAD args end).
