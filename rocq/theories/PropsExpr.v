(** Property theorems about expressions and conditions: C01, C07, C08, C09. *)
From Coq Require Import ZArith List String Bool Lia.
From Verif Require Import CInt Tree State Eval StepsFacts SpecRun SpecExpr SpecControl RunFacts RunRules
  ExprFacts ControlFacts CondFacts TestEnv TestRun.
Import ListNotations.
Local Open Scope string_scope.
Local Open Scope Z_scope.

(** C01.  An expression of the integer fragment whose variables have the values [rho]
    evaluates to the integer it denotes, or aborts where it denotes nothing because of a
    division by zero; nothing but garbage collection happens to the state. *)
Theorem C01_integer_expressions : forall E rho e s,
  (forall x, mentions e x -> number E s (lookup s x) (rho x)) ->
  exists s', only_gc E s s' /\
    match denote rho e with
    | Some v => exists r, runs E s (syntax e) (Ok r s') /\ number E s' r v
    | None => runs E s (syntax e) (Abort s')
    end.
Proof. intros E rho e s. exact (expr_correct E rho e s). Qed.
Print Assumptions C01_integer_expressions.

(** Outcomes are unique, so this is the only one. *)
Theorem C01_outcome_unique : forall E s t r r', runs E s t r -> runs E s t r' -> r = r'.
Proof. exact runs_fun. Qed.
Print Assumptions C01_outcome_unique.

(** [int x = -7; int y = 2;] *)
Definition two_vars : state := after [init_int 1 "x" (num (-7)); init_int 2 "y" (num 2)].
Definition rho2 (x : string) : Z := if String.eqb x "x" then -7 else 2.

Definition e1 : expr :=
  Bin DIV (Bin LSHIFT (Var "x") (Lit 70)) (Cond (Cmp LT (Var "x") (Var "y")) (Var "y") (Lit 0)).

Example C01_nontrivial : forall x, mentions e1 x -> number env0 two_vars (lookup two_vars x) (rho2 x).
Proof.
  intros x H. cbn in H.
  assert (Hx : x = "x" \/ x = "y") by tauto.
  apply numberb_ok. destruct Hx as [-> | ->]; vm_compute; reflexivity.
Qed.
Example C01_value :
  denote rho2 e1 = Some (-4132070672510939561984) /\
  denote rho2 (Bin DIV (Var "x") (Var "y")) = Some (-4) /\
  denote rho2 (Bin MOD (Var "x") (Var "y")) = Some (-1) /\
  denote rho2 (Bin RSHIFT (Var "x") (Lit 1)) = Some (-3) /\
  denote rho2 (Bin DIV (Var "x") (Bin SUB (Var "y") (Lit 2))) = None.
Proof. vm_compute. repeat split. Qed.

(** C07.  [a && b]: the four ways in which it can end.  [b] is evaluated exactly if [a] is not
    zero, in the state [a] left. *)
Theorem C07_logical_and : forall E s a b r,
  runs E s (T_L_AND a b) r <->
  (exists s1, int_value E s a (Ok 0 s1) /\ r = Ok (T_INTEGER 0) (after_tick E s1)) \/
  (exists x s1 y s2, int_value E s a (Ok x s1) /\ x <> 0 /\ int_value E s1 b (Ok y s2) /\
     r = Ok (T_INTEGER (b2z (negb (y =? 0)))) (after_tick E s2)) \/
  (exists o, int_value E s a o /\ same_stop o r) \/
  (exists x s1 o, int_value E s a (Ok x s1) /\ x <> 0 /\ int_value E s1 b o /\ same_stop o r).
Proof. exact and_spec. Qed.
Print Assumptions C07_logical_and.

Theorem C07_logical_or : forall E s a b r,
  runs E s (T_L_OR a b) r <->
  (exists x s1, int_value E s a (Ok x s1) /\ x <> 0 /\ r = Ok (T_INTEGER 1) (after_tick E s1)) \/
  (exists s1 y s2, int_value E s a (Ok 0 s1) /\ int_value E s1 b (Ok y s2) /\
     r = Ok (T_INTEGER (b2z (negb (y =? 0)))) (after_tick E s2)) \/
  (exists o, int_value E s a o /\ same_stop o r) \/
  (exists s1 o, int_value E s a (Ok 0 s1) /\ int_value E s1 b o /\ same_stop o r).
Proof. exact or_spec. Qed.
Print Assumptions C07_logical_or.

(** When the right operand is skipped it does not matter what it is, and the final state only
    differs from the one the left operand left by garbage collection. *)
Theorem C07_skipped_operand : forall E s a s1 b b' x,
  int_value E s a (Ok x s1) ->
  (x = 0 -> forall r, runs E s (T_L_AND a b) r <-> runs E s (T_L_AND a b') r) /\
  (x <> 0 -> forall r, runs E s (T_L_OR a b) r <-> runs E s (T_L_OR a b') r) /\
  only_gc E s1 (after_tick E s1).
Proof. exact skipped_operand. Qed.
Print Assumptions C07_skipped_operand.

Theorem C07_result_is_boolean : forall E s a b v s',
  runs E s (T_L_AND a b) (Ok v s') \/ runs E s (T_L_OR a b) (Ok v s') ->
  v = T_INTEGER 0 \/ v = T_INTEGER 1.
Proof. exact result_boolean. Qed.
Print Assumptions C07_result_is_boolean.

(** [(x + 7) && (1/0)] does not divide, [x && (1/0)] does. *)
Example C07_nontrivial :
  int_value env0 two_vars (T_BINOP ADD (id "x") (num 7))
    (Ok 0 (final_state (outcome two_vars (T_BINOP ADD (id "x") (num 7))))) /\
  int_value env0 two_vars (id "x") (Ok (-7) (after_tick env0 two_vars)) /\
  value (outcome two_vars (T_L_AND (T_BINOP ADD (id "x") (num 7)) (T_BINOP DIV (num 1) (num 0)))) = Some (num 0) /\
  kind_of (outcome two_vars (T_L_AND (id "x") (T_BINOP DIV (num 1) (num 0)))) = KAbort.
Proof.
  split; [|split; [|split; vm_compute; reflexivity]].
  - left. exists (T_INTEGER 0), (final_state (outcome two_vars (T_BINOP ADD (id "x") (num 7)))).
    split; [|reflexivity]. apply outcome_ok. vm_compute. reflexivity.
  - eapply int_value_var; vm_compute; reflexivity.
Qed.

(** C08.  [c ? a : b] evaluates [c], then exactly one arm, whose outcome it has. *)
Theorem C08_conditional_expression : forall E s c a b r,
  runs E s (T_INFIX c a b) r <->
  (exists z s1, int_value E s c (Ok z s1) /\ (holds z /\ runs E s1 a r \/ ~ holds z /\ runs E s1 b r)) \/
  (exists o, int_value E s c o /\ same_stop o r).
Proof. exact cond_spec. Qed.
Print Assumptions C08_conditional_expression.

(** [if (c) A else B] evaluates [c], then exactly one arm in a new scope, which is then left. *)
Theorem C08_if : forall E s c a b r,
  runs E s (T_IF c a b) r <->
  (exists z s1 arm, int_value E s c (Ok z s1) /\ (holds z /\ arm = a \/ ~ holds z /\ arm = b) /\
     ((exists s2, runs_body E (open_scope E "If statement" s1) arm (Ok tt s2) /\ r = close_scope NULL s2) \/
      (exists o, runs_body E (open_scope E "If statement" s1) arm o /\ same_stop o r))) \/
  (exists o, int_value E s c o /\ same_stop o r).
Proof. exact if_spec. Qed.
Print Assumptions C08_if.

(** The arm not chosen is irrelevant. *)
Theorem C08_other_arm_irrelevant : forall E s c z s1 a b a' b' r,
  int_value E s c (Ok z s1) ->
  (holds z -> (runs E s (T_INFIX c a b) r <-> runs E s (T_INFIX c a b') r) /\
              (runs E s (T_IF c a b) r <-> runs E s (T_IF c a b') r)) /\
  (~ holds z -> (runs E s (T_INFIX c a b) r <-> runs E s (T_INFIX c a' b) r) /\
                (runs E s (T_IF c a b) r <-> runs E s (T_IF c a' b) r)).
Proof. exact other_arm. Qed.
Print Assumptions C08_other_arm_irrelevant.

(** For conditions in the range of long this is C's rule. *)
Theorem C08_condition_in_range : forall z, - 2 ^ 63 <= z < 2 ^ 63 -> (holds z <-> z <> 0).
Proof. exact holds_in_range. Qed.
Print Assumptions C08_condition_in_range.

Example C08_nontrivial : holds (-7) /\ ~ holds 0 /\
  value (outcome two_vars (T_INFIX (id "x") (id "y") (T_BINOP DIV (num 1) (num 0))))
    = Some (T_LIVE_VAR (D_T D_T_INT) 4144 false 0).
Proof.
  split; [apply C08_condition_in_range; lia|]. split; [rewrite C08_condition_in_range; lia|].
  vm_compute. reflexivity.
Qed.

(** C09.  An integer expression with value [z] counts as true for [!], [&&] and [||] exactly
    if [z <> 0], for [?:] and [if] exactly if [z] is not a non-negative multiple of 2^63.
    (Loops use the same [holds], see C10 and C11.) *)
Theorem C09_truth : forall E rho e s z,
  (forall x, mentions e x -> number E s (lookup s x) (rho x)) -> denote rho e = Some z ->
  (exists s1, runs E s (T_NEGATE (syntax e)) (Ok (T_INTEGER (b2z (z =? 0))) s1)) /\
  (exists s1, runs E s (T_L_AND (syntax e) (T_INTEGER 1)) (Ok (T_INTEGER (b2z (negb (z =? 0)))) s1)) /\
  (exists s1, runs E s (T_L_OR (syntax e) (T_INTEGER 0)) (Ok (T_INTEGER (b2z (negb (z =? 0)))) s1)) /\
  (exists s1, int_value E s (syntax e) (Ok z s1) /\ only_gc E s s1 /\
     forall a b arm, (holds z /\ arm = a \/ ~ holds z /\ arm = b) ->
       (forall r, runs E s (T_INFIX (syntax e) a b) r <-> runs E s1 arm r) /\
       (forall s2, runs_body E (open_scope E "If statement" s1) arm (Ok tt s2) ->
                   runs E s (T_IF (syntax e) a b) (close_scope NULL s2))).
Proof. exact truth. Qed.
Print Assumptions C09_truth.

(** The two notions differ exactly on the positive multiples of 2^63. *)
Theorem C09_mismatch : forall z, (z <> 0 /\ ~ holds z) <-> (0 < z /\ exists k, z = k * 2 ^ 63).
Proof. exact mismatch. Qed.
Print Assumptions C09_mismatch.

(** [1 << 63] is such a value: [!] says it is non-zero, [?:] takes the second arm. *)
Example C09_nontrivial :
  denote rho2 (Bin LSHIFT (Lit 1) (Lit 63)) = Some (2 ^ 63) /\ ~ holds (2 ^ 63) /\
  value (outcome s0 (T_NEGATE (syntax (Bin LSHIFT (Lit 1) (Lit 63))))) = Some (T_INTEGER 0) /\
  value (outcome s0 (T_INFIX (syntax (Bin LSHIFT (Lit 1) (Lit 63))) (num 10) (num 20))) = Some (T_INTEGER 20).
Proof.
  split; [vm_compute; reflexivity|]. split; [|split; vm_compute; reflexivity].
  intros H. apply H. split; [lia|]. exists 1. reflexivity.
Qed.
