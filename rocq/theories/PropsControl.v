(** Property theorems about loops, break, return and blocks: C10 - C13, C49, C50. *)
From Coq Require Import ZArith List String Bool Lia.
From Verif Require Import CInt Tree State Eval StepsFacts SpecRun SpecExpr SpecControl SpecStmt RunFacts RunRules
  ExprFacts ControlFacts CondFacts StmtFacts CallFacts LoopFacts OnceFacts BreakFacts TestEnv TestRun TestReturn.
Import ListNotations.
Local Open Scope string_scope.
Local Open Scope Z_scope.
Local Open Scope list_scope.

(** * C10: while loops *)

(** A while loop is the iteration [loop] of SpecControl.v with nothing between the body and
    the next test. *)
Theorem C10_while_is_iteration : forall E s c b r,
  runs E s (T_LOOP_WHILE c b) r <-> loop E "While Loop" c b no_step s r.
Proof. exact while_spec. Qed.
Print Assumptions C10_while_is_iteration.

(** The invariant rule.  When the loop has ended normally, the invariant holds and the
    condition, evaluated last, was false; when it was left by break, the invariant held when
    the body was entered for the last time. *)
Theorem C10_while_invariant : forall E c b (I : state -> Prop) s v s',
  (forall s z s1, I s -> loop_cond E s c (Ok z s1) -> I s1) ->
  (forall s s1 s2, I s -> runs_body E (open_scope E "While Loop" s) b (Ok tt s1) -> ~ broke s1 ->
     close_scope tt s1 = Ok tt s2 -> I s2) ->
  I s -> runs E s (T_LOOP_WHILE c b) (Ok v s') ->
  v = NULL /\
  ((I s' /\ exists s1 z, I s1 /\ loop_cond E s1 c (Ok z s') /\ ~ holds z) \/
   (broke s' /\ exists s1 z s2, I s1 /\ loop_cond E s1 c (Ok z s2) /\ holds z /\ I s2 /\
      runs_body E (open_scope E "While Loop" s2) b (Ok tt s'))).
Proof. exact while_rule. Qed.
Print Assumptions C10_while_invariant.

(** Total correctness: with a variant the loop ends normally. *)
Theorem C10_while_terminates : forall E c b (I : state -> Prop) (V : state -> nat),
  (forall s, I s -> exists z s1, loop_cond E s c (Ok z s1) /\
     (holds z -> exists s2 s3, runs_body E (open_scope E "While Loop" s1) b (Ok tt s2) /\ ~ broke s2 /\
        close_scope tt s2 = Ok tt s3 /\ I s3 /\ (V s3 < V s)%nat)) ->
  forall s, I s -> exists s', runs E s (T_LOOP_WHILE c b) (Ok NULL s').
Proof. exact while_total. Qed.
Print Assumptions C10_while_terminates.

(** A false condition: the body does not matter, and the state is the one the condition left. *)
Theorem C10_body_not_entered : forall E s c z s1 b r,
  loop_cond E s c (Ok z s1) -> ~ holds z ->
  (runs E s (T_LOOP_WHILE c b) r <-> r = Ok NULL s1).
Proof. exact while_false. Qed.
Print Assumptions C10_body_not_entered.

(** [int i = 2; while (i) { i = i - 1; }] *)
Definition start : state := after [init_int 1 "i" (num 2)].
Definition dec : tree := CHAIN_HEAD [T_ASSIGN 9 (id "i") (T_BINOP SUB (id "i") (num 1))].
Definition body_state (s : state) : state := final_state (outcome_body (open_scope env0 "While Loop" (after_tick env0 s)) dec).
Definition round (s : state) : state := final_state (close_scope tt (body_state s)).
Definition i_value (s : state) : Z :=
  match lookup s "i" with T_LIVE_VAR _ a _ _ => value_at s D_T_INT a | _ => 0 end.

Example C10_loop_runs : exists s', runs env0 start (T_LOOP_WHILE (id "i") dec) (Ok NULL s') /\ i_value s' = 0.
Proof.
  exists (final_state (outcome start (T_LOOP_WHILE (id "i") dec))).
  split; [apply outcome_ok|]; vm_compute; reflexivity.
Qed.

(** The hypotheses of [C10_while_terminates] for this loop, the variant being the value of [i]. *)
Example C10_nontrivial :
  let I s := s = start \/ s = round start \/ s = round (round start) in
  let V s := Z.to_nat (i_value s) in
  I start /\ V start = 2%nat /\
  forall s, I s -> exists z s1, loop_cond env0 s (id "i") (Ok z s1) /\
     (holds z -> exists s2 s3, runs_body env0 (open_scope env0 "While Loop" s1) dec (Ok tt s2) /\ ~ broke s2 /\
        close_scope tt s2 = Ok tt s3 /\ I s3 /\ (V s3 < V s)%nat).
Proof.
  intros I V. split; [left; reflexivity|]. split; [vm_compute; reflexivity|].
  intros s HI. exists (i_value s), (after_tick env0 s). split.
  - assert (Hx : lookup s "i" = T_LIVE_VAR (D_T D_T_INT) 4112 false 0)
      by (destruct HI as [-> | [-> | ->]]; vm_compute; reflexivity).
    apply (loop_cond_variable s "i" _ _ _ _ _ Hx).
    destruct HI as [-> | [-> | ->]]; vm_compute; reflexivity.
  - intros Hz.
    assert (Hs : s = start \/ s = round start).
    { destruct HI as [H | [H | H]]; auto. exfalso. apply Hz. subst s.
      assert (Hv : i_value (round (round start)) = 0) by (vm_compute; reflexivity). rewrite Hv.
      split; [lia|]. exists 0. reflexivity. }
    exists (body_state s), (round s). split; [|split; [|split; [|split]]].
    + apply outcome_body_ok. destruct Hs as [-> | ->]; vm_compute; reflexivity.
    + apply not_broke_b. destruct Hs as [-> | ->]; vm_compute; reflexivity.
    + apply close_scope_b. destruct Hs as [-> | ->]; vm_compute; reflexivity.
    + subst I. cbv beta. destruct Hs as [-> | ->]; auto.
    + destruct Hs as [-> | ->]; vm_compute; lia.
Qed.

(** * C11: for loops *)

(** The initialiser is evaluated once, in the scope the loop stands in; then condition, body
    in a new scope, and step alternate. *)
Theorem C11_for_is_iteration : forall E s i c a b r,
  runs E s (T_LOOP_FOR i c a b) r <->
  (exists v s1, runs E s i (Ok v s1) /\ loop E "For Loop" c b (fun s o => runs E s a o) s1 r) \/
  (exists o, runs E s i o /\ same_stop o r).
Proof. exact for_spec. Qed.
Print Assumptions C11_for_is_iteration.

Theorem C11_for_invariant : forall E i c a b (I : state -> Prop) s w0 s0 v s',
  (forall s z s1, I s -> loop_cond E s c (Ok z s1) -> I s1) ->
  (forall s s1 s2 w s3, I s -> runs_body E (open_scope E "For Loop" s) b (Ok tt s1) -> ~ broke s1 ->
     close_scope tt s1 = Ok tt s2 -> runs E s2 a (Ok w s3) -> I s3) ->
  runs E s i (Ok w0 s0) -> I s0 -> runs E s (T_LOOP_FOR i c a b) (Ok v s') ->
  v = NULL /\
  ((I s' /\ exists s1 z, I s1 /\ loop_cond E s1 c (Ok z s') /\ ~ holds z) \/
   (broke s' /\ exists s1 z s2, I s1 /\ loop_cond E s1 c (Ok z s2) /\ holds z /\ I s2 /\
      runs_body E (open_scope E "For Loop" s2) b (Ok tt s'))).
Proof. exact for_rule. Qed.
Print Assumptions C11_for_invariant.

(** A name the initialiser's scope maps after the initialiser means the same after the loop. *)
Theorem C11_initialiser_scope : forall E s i c a b w s1 v s' x d ds,
  reachable E s -> runs E s i (Ok w s1) ->
  runs E s (T_LOOP_FOR i c a b) (Ok v s') -> breaks s' = breaks s1 ->
  stack s1 = d :: ds -> resolve_id x (c_idmap d) <> NULL -> lookup s' x = resolve_id x (c_idmap d).
Proof. exact for_scope. Qed.
Print Assumptions C11_initialiser_scope.

(** [for (int j = 0; j < 2; j++) { i = i + j; }] from the state [start]. *)
Definition for_loop : tree :=
  T_LOOP_FOR (init_int 5 "j" (num 0)) (T_CMP LT (id "j") (num 2)) (T_P_INC (id "j"))
    (CHAIN_HEAD [T_ASSIGN 6 (id "i") (T_BINOP ADD (id "i") (id "j"))]).
Example C11_nontrivial : exists w s1 s' d ds,
  reachable env0 start /\ lookup start "j" = NULL /\
  runs env0 start (init_int 5 "j" (num 0)) (Ok w s1) /\
  runs env0 start for_loop (Ok NULL s') /\ breaks s' = breaks s1 /\
  stack s1 = d :: ds /\ resolve_id "j" (c_idmap d) <> NULL /\ i_value s' = 3.
Proof.
  destruct (value (outcome start (init_int 5 "j" (num 0)))) as [w|] eqn:Hw; [|vm_compute in Hw; discriminate].
  exists w, (final_state (outcome start (init_int 5 "j" (num 0)))), (final_state (outcome start for_loop)).
  destruct (stack (final_state (outcome start (init_int 5 "j" (num 0))))) as [|d ds] eqn:Hs.
  { exfalso. apply (f_equal (@List.length ctx)) in Hs. vm_compute in Hs. discriminate. }
  exists d, ds. split; [apply reachable_after|]. split; [vm_compute; reflexivity|].
  split; [apply outcome_ok; exact Hw|]. split; [apply outcome_ok; vm_compute; reflexivity|].
  split; [vm_compute; reflexivity|]. split; [reflexivity|]. split; [|vm_compute; reflexivity].
  intros H. assert (Hn : negb (is_NULL (resolve_id "j" (c_idmap (hd d (stack (final_state (outcome start (init_int 5 "j" (num 0))))))))) = true).
  { clear. vm_compute. reflexivity. }
  rewrite Hs in Hn. cbn [hd] in Hn. rewrite H in Hn. discriminate.
Qed.

(** * C12: return *)

(** A return statement executed under any nesting of braced ifs and loops ends the call, whose
    value is that of the operand; the scopes are those at the call. *)
Theorem C12_return_ends_call : forall E s f args name params rt body s1 s2 i v s3,
  reachable E s ->
  runs E s f (Ok (T_FN (T_IDENTIFIER name) params rt body) s1) ->
  entered E name params args s1 s2 -> returns E s2 body i v s3 -> breaks s3 = breaks s1 ->
  runs E s (T_FN_CALL f args) (Ok v (set_stack (fun _ => stack s1) s3)).
Proof. exact call_returns_nobreak. Qed.
Print Assumptions C12_return_ends_call.

(** A body that ends without return: the call has no value. *)
Theorem C12_no_return : forall E s f args name params rt body s1 s2 s3,
  reachable E s ->
  runs E s f (Ok (T_FN (T_IDENTIFIER name) params rt body) s1) -> body <> NULL ->
  entered E name params args s1 s2 -> runs_body E s2 body (Ok tt s3) -> breaks s3 = breaks s1 ->
  runs E s (T_FN_CALL f args) (Ok NULL (set_stack (fun _ => stack s1) s3)).
Proof. exact call_falls_off_nobreak. Qed.
Print Assumptions C12_no_return.

(** [int h(int n) { while (n) { if (n < 5) { return n + 1; } n--; } }
     int g() { while (1) { break; } }
     int f() { g(); return 1; }] *)
Definition h_body : list tree :=
  [T_LOOP_WHILE (id "n") (CHAIN_HEAD
     [T_IF (T_CMP LT (id "n") (num 5)) (CHAIN_HEAD [T_RETURN 5 (T_BINOP ADD (id "n") (num 1))]) NULL;
      T_P_DEC (id "n")])].
Definition h_params : tree := CHAIN_HEAD [decl_int "n"].
Definition three_functions : state :=
  after [fn_int 1 "g" NULL [T_LOOP_WHILE (num 1) (CHAIN_HEAD [T_BREAK])];
         fn_int 2 "f" NULL [call "g" []; T_RETURN 3 (num 1)];
         fn_int 4 "h" h_params h_body].
Definition in_h : state := entered_state "h" h_params (CHAIN_HEAD [num 6]) three_functions.
Definition h_done : state := returned_state in_h (CHAIN_HEAD h_body).

(** [h(6)] returns 5 in the third iteration. *)
Example C12_nontrivial :
  reachable env0 three_functions /\
  runs env0 three_functions (id "h")
    (Ok (T_FN (T_IDENTIFIER "h") h_params (D_T D_T_INT) (CHAIN_HEAD h_body)) three_functions) /\
  entered env0 "h" h_params (CHAIN_HEAD [num 6]) three_functions in_h /\
  returns env0 in_h (CHAIN_HEAD h_body) (fresh three_functions) (T_INTEGER 5) h_done /\
  breaks h_done = breaks three_functions.
Proof.
  split; [apply reachable_after|]. split.
  { assert (Hl : lookup three_functions "h" = T_FN (T_IDENTIFIER "h") h_params (D_T D_T_INT) (CHAIN_HEAD h_body))
      by (vm_compute; reflexivity).
    rewrite <- Hl. apply run_identifier. rewrite Hl. discriminate. }
  split; [apply entered_c_ok; vm_compute; reflexivity|].
  split; [apply returned_value_ok; vm_compute; reflexivity|]. vm_compute. reflexivity.
Qed.

(** Without the condition on break statements the claim is false: after a loop inside [g] was
    left by break, the return statement of [f] jumps to the activation of [g], which is over. *)
Theorem C12_with_break_refuted : exists s i s',
  reachable env0 s /\ activation (stack s) = None /\
  runs env0 s (T_FN_CALL (T_IDENTIFIER "f") NULL) (Jmp i s').
Proof.
  exists three_functions, (fresh three_functions + 1), (final_state (outcome three_functions (call "f" []))).
  split; [apply reachable_after|]. split; [vm_compute; reflexivity|].
  apply outcome_jmp. vm_compute. reflexivity.
Qed.
Print Assumptions C12_with_break_refuted.

(** * C13: return statements compute their value once *)

(** The first execution of a return statement evaluates the operand and records the value. *)
Theorem C13_first_execution : forall E l s e v s1,
  runs E s e (Ok v s1) -> zfind l (ov_ret s) = None ->
  let s2 := set_ov_ret (fun o => (l, v) :: o) s1 in
  runs E s (T_RETURN l e) (Ok (T_RETURN l e) s2) /\ recorded s2 l v.
Proof. exact return_first. Qed.
Print Assumptions C13_first_execution.

(** Once recorded, the value stays whatever is evaluated, and executing the statement again
    does nothing but record it again; its operand is not evaluated. *)
Theorem C13_later_executions : forall E l w, settled w -> forall s t r s',
  recorded s l w -> runs E s t r -> final r = Some s' ->
  recorded s' l w /\
  forall e, runs E s' (T_RETURN l e) (Ok (T_RETURN l e) (set_ov_ret (fun o => (l, w) :: o) s')).
Proof. exact recorded_later. Qed.
Print Assumptions C13_later_executions.

Theorem C13_later_executions_body : forall E l w, settled w -> forall s t r s',
  recorded s l w -> runs_body E s t r -> final r = Some s' ->
  recorded s' l w /\
  forall e, runs E s' (T_RETURN l e) (Ok (T_RETURN l e) (set_ov_ret (fun o => (l, w) :: o) s')).
Proof. exact recorded_later_body. Qed.
Print Assumptions C13_later_executions_body.

(** A function whose first statement is such a return has the recorded value, whatever it is
    called with. *)
Theorem C13_function_is_constant : forall E l w, settled w ->
  forall s f args name params rt e post s1 s2,
  reachable E s -> recorded s1 l w ->
  runs E s f (Ok (T_FN (T_IDENTIFIER name) params rt (CHAIN_HEAD (T_RETURN l e :: post))) s1) ->
  entered E name params args s1 s2 -> breaks s2 = breaks s1 ->
  exists s3, runs E s (T_FN_CALL f args) (Ok w s3) /\ stack s3 = stack s1 /\ mem s3 = mem s2.
Proof. exact recorded_call. Qed.
Print Assumptions C13_function_is_constant.

(** [int id(int n) { return n + 0; }] after [id(4)]; [id(9)] is 4. *)
Definition id_stmts : list tree := [T_RETURN 8 (T_BINOP ADD (id "n") (num 0))].
Definition id_called : state :=
  after [fn_int 7 "id" h_params id_stmts; call "id" [num 4]].
Example C13_nontrivial :
  settled (T_INTEGER 4) /\ reachable env0 id_called /\ recorded id_called 8 (T_INTEGER 4) /\
  runs env0 id_called (id "id")
    (Ok (T_FN (T_IDENTIFIER "id") h_params (D_T D_T_INT) (CHAIN_HEAD id_stmts)) id_called) /\
  exists s2, entered env0 "id" h_params (CHAIN_HEAD [num 9]) id_called s2 /\ breaks s2 = breaks id_called.
Proof.
  split; [constructor|]. split; [apply reachable_after|]. split; [vm_compute; reflexivity|]. split.
  { assert (Hl : lookup id_called "id" = T_FN (T_IDENTIFIER "id") h_params (D_T D_T_INT) (CHAIN_HEAD id_stmts))
      by (vm_compute; reflexivity).
    rewrite <- Hl. apply run_identifier. rewrite Hl. discriminate. }
  exists (entered_state "id" h_params (CHAIN_HEAD [num 9]) id_called).
  split; [apply entered_c_ok; vm_compute; reflexivity|]. vm_compute. reflexivity.
Qed.

(** * C49: break *)

(** As a direct item of the braced body of a loop, or as its whole body, break ends the loop at
    once; the scope of that iteration stays open. *)
Theorem C49_break_ends_loop : forall E name c pre post t s z s1 s2,
  reachable E s -> loop_stmt name c (CHAIN_HEAD (pre ++ T_BREAK :: post)) t ->
  loop_cond E s c (Ok z s1) -> holds z -> items E pre (open_scope E name s1) s2 ->
  runs E s t (Ok NULL (marked s2)).
Proof. exact break_in_loop. Qed.
Print Assumptions C49_break_ends_loop.

Theorem C49_break_as_loop_body : forall E name c t s z s1,
  loop_stmt name c T_BREAK t -> loop_cond E s c (Ok z s1) -> holds z ->
  runs E s t (Ok NULL (marked (open_scope E name s1))).
Proof. exact break_as_body. Qed.
Print Assumptions C49_break_as_loop_body.

(** In an arm of an if, break ends at most that arm: the if statement ends normally, in the
    scopes it was started in. *)
Theorem C49_break_in_braced_if : forall E pre post s c a b z s1 s2 arm,
  reachable E s -> int_value E s c (Ok z s1) -> (holds z /\ arm = a \/ ~ holds z /\ arm = b) ->
  arm = CHAIN_HEAD (pre ++ T_BREAK :: post) ->
  items E pre (open_scope E "If statement" s1) s2 -> breaks s2 = breaks s1 ->
  exists s3, runs E s (T_IF c a b) (Ok NULL s3) /\ stack s3 = stack s1 /\ mem s3 = mem s2 /\ blocks s3 = blocks s2.
Proof. exact break_in_if. Qed.
Print Assumptions C49_break_in_braced_if.

Theorem C49_break_in_unbraced_if : forall E s c a b z s1 arm,
  reachable E s -> int_value E s c (Ok z s1) -> (holds z /\ arm = a \/ ~ holds z /\ arm = b) -> arm = T_BREAK ->
  exists s3, runs E s (T_IF c a b) (Ok NULL s3) /\ stack s3 = stack s1 /\ mem s3 = mem s1.
Proof. exact break_unbraced_if. Qed.
Print Assumptions C49_break_in_unbraced_if.

(** A loop that was left by break ends the loop around it as well, once the current iteration
    is over. *)
Theorem C49_break_ends_outer_loop : forall E name c pre i post t s z s1 s2 v s3 s4,
  reachable E s -> loop_stmt name c (CHAIN_HEAD (pre ++ i :: post)) t ->
  loop_cond E s c (Ok z s1) -> holds z -> items E pre (open_scope E name s1) s2 ->
  runs E s2 i (Ok v s3) -> ends_list v = false -> broke s3 ->
  items E post s3 s4 -> breaks s4 = breaks s3 ->
  runs E s t (Ok NULL s4).
Proof. exact break_escapes. Qed.
Print Assumptions C49_break_ends_outer_loop.

(** [while (i) { i = i - 1; break; }], [if (i) { i = i - 1; break; }] and
    [while (1) { while (i) { i = i - 1; break; } i = i - 1; }] from the state [start], where [i] is 2. *)
Definition dec_stmt : tree := T_ASSIGN 9 (id "i") (T_BINOP SUB (id "i") (num 1)).
Definition dec_break : tree := CHAIN_HEAD ([dec_stmt] ++ T_BREAK :: []).
Definition nested_loop : tree := T_LOOP_WHILE (num 1) (CHAIN_HEAD ([] ++ T_LOOP_WHILE (id "i") dec_break :: [dec_stmt])).

Example C49_nontrivial : exists s2,
  reachable env0 start /\ loop_cond env0 start (id "i") (Ok 2 (after_tick env0 start)) /\ holds 2 /\
  items env0 [dec_stmt] (open_scope env0 "While Loop" (after_tick env0 start)) s2 /\
  runs env0 start (T_LOOP_WHILE (id "i") dec_break) (Ok NULL (marked s2)) /\ i_value (marked s2) = 1.
Proof.
  assert (H1 : loop_cond env0 start (id "i") (Ok 2 (after_tick env0 start)))
    by (eapply loop_cond_variable; vm_compute; reflexivity).
  assert (H2 : holds 2) by (intros [_ [k Hk]]; lia).
  assert (H3 : items env0 [dec_stmt] (open_scope env0 "While Loop" (after_tick env0 start))
    (final_state (outcome (open_scope env0 "While Loop" (after_tick env0 start)) dec_stmt))).
  { eapply items_cons; [apply outcome_ok; vm_compute; reflexivity|reflexivity|constructor]. }
  eexists. split; [apply reachable_after|]. split; [exact H1|]. split; [exact H2|]. split; [exact H3|].
  split; [|vm_compute; reflexivity].
  eapply C49_break_ends_loop; [apply reachable_after|constructor|exact H1|exact H2|exact H3].
Qed.
(** The outer loop of [nested_loop] runs once only. *)
Example C49_outer_runs_once :
  value (outcome start nested_loop) = Some NULL /\ i_value (final_state (outcome start nested_loop)) = 0 /\
  value (outcome start (T_IF (id "i") dec_break NULL)) = Some NULL /\
  i_value (final_state (outcome start (T_IF (id "i") dec_break NULL))) = 1.
Proof. vm_compute. auto. Qed.

(** * C50: nested blocks *)

(** A block as an item of a block has no effect, whatever it contains. *)
Theorem C50_nested_block_skipped : forall E pre l post s r,
  runs_body E s (CHAIN_HEAD (pre ++ CHAIN_HEAD l :: post)) r <-> runs_body E s (CHAIN_HEAD (pre ++ post)) r.
Proof. exact skip_nested_block. Qed.
Print Assumptions C50_nested_block_skipped.

Example C50_nontrivial : exists s', 
  runs_body env0 start (CHAIN_HEAD ([dec_stmt] ++ CHAIN_HEAD [dec_stmt; T_RETURN 4 (num 3)] :: [])) (Ok tt s') /\
  i_value s' = 1.
Proof.
  exists (final_state (outcome_body start (CHAIN_HEAD [dec_stmt]))). split; [|vm_compute; reflexivity].
  apply C50_nested_block_skipped. apply outcome_body_ok. vm_compute. reflexivity.
Qed.
