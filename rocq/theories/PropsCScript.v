(** C40 - C42: scripts. *)
From Coq Require Import ZArith List String Bool Lia.
From Verif Require Import CInt Tree State Eval CScript StepsFacts SpecRun SpecNames SpecTypes SpecExpr SpecVars SpecPtr SpecControl SpecStmt SpecCalls
  SpecCScript CScriptFacts RunFacts RunRules NameFacts CallFacts ParamFacts ArgFacts TestEnv TestRun.
Import ListNotations.
Local Open Scope string_scope.
Local Open Scope Z_scope.
Local Open Scope list_scope.

(** * C40: what a script executes *)

(** A script that consists of declarations, one of which declares main, executes these and then
    one call of main, from the state after the arguments have been made (C42). *)
Theorem C40_main : forall E s l argv k s1,
  Forall declaration l -> has_main l -> main_parameters l k -> arguments E s argv (Ok tt s1) ->
  exists s2, only_gc E s1 s2 /\ executes E s l argv (l ++ [call_main k]) s2.
Proof. exact script_main. Qed.
Print Assumptions C40_main.

(** A script that does not declare main executes its items. *)
Theorem C40_no_main : forall E s l argv s1,
  top_level l -> ~ has_main l -> arguments E s argv (Ok tt s1) -> executes E s l argv l s1.
Proof. exact script_no_main. Qed.
Print Assumptions C40_no_main.

(** A script that declares main and has a statement exits with status 1; nothing has happened. *)
Theorem C40_mixed : forall E s l argv,
  top_level l -> has_main l -> (exists i, In i l /\ statement i) ->
  forall r, script E s l argv r <-> r = Exit 1 s.
Proof. exact script_mixed. Qed.
Print Assumptions C40_mixed.

(** Otherwise, if there is no memory for the arguments, nothing of the script is executed. *)
Theorem C40_no_memory : forall E s l argv n s1,
  top_level l -> ~ (has_main l /\ exists i, In i l /\ statement i) -> arguments E s argv (NoMemory n s1) ->
  forall r, script E s l argv r <-> r = NoMemory n s1.
Proof. exact script_no_arguments. Qed.
Print Assumptions C40_no_memory.

(** Every script has a number of parameters of main. *)
Theorem C40_parameters : forall l, top_level l -> exists k, main_parameters l k.
Proof. exact main_parameters_total. Qed.
Print Assumptions C40_parameters.

(** Concrete scripts with two arguments:
    [int x = 3; int main(int c, char **v) { x = c; return 5; }];
    [int x = 3; x = 4;]; [int x = 3; int main() { return 5; } x = 4;];
    [char *main() { return 5; }]. *)
Definition made (argv : list Z) : res unit := create_arguments env0 60 argv s0.
Definition ran (l : list tree) (argv : list Z) : res Z := evaluate_cscript env0 60 (Items l) false argv s0.

Lemma started_s0 : started env0 s0.
Proof.
  exists (fun _ => 170), []. split; [repeat split; constructor|].
  assert (H : match eval_init env0 (start_state (fun _ => 170) []) with Ok _ _ => true | _ => false end = true)
    by (vm_compute; reflexivity).
  unfold s0. revert H. generalize (eval_init env0 (start_state (fun _ => 170) [])).
  intros r H. destruct r as [[] s| | | | | | | |]; try discriminate. reflexivity.
Qed.
Lemma ok_value A (r : res A) v : value r = Some v -> r = Ok v (final_state r).
Proof. destruct r; try discriminate. intros H. injection H as ->. reflexivity. Qed.
Arguments ok_value {A}.
Lemma arguments_ok E s argv n : value (create_arguments E n argv s) = Some tt -> arguments E s argv (Ok tt (final_state (create_arguments E n argv s))).
Proof. intros H. split; [discriminate|]. exists n. apply ok_value, H. Qed.
Lemma made_ok argv : value (made argv) = Some tt -> arguments env0 s0 argv (Ok tt (final_state (made argv))).
Proof. unfold made. apply arguments_ok. Qed.
Lemma ran_not_fuel E s l argv n : kind_of (evaluate_cscript E n (Items l) false argv s) <> KFuel ->
  script E s l argv (evaluate_cscript E n (Items l) false argv s).
Proof. intros H. split; [intros Hf; rewrite Hf in H; apply H; reflexivity|]. exists n. reflexivity. Qed.
Lemma ran_script l argv : kind_of (ran l argv) <> KFuel -> script env0 s0 l argv (ran l argv).
Proof. unfold ran. apply ran_not_fuel. Qed.

Definition main_full : tree :=
  fn_int (-3) "main" (CHAIN_HEAD [decl_int "c"; T_DECL (-4) (specs [T_CHAR_TS]) (CHAIN_HEAD [T_POINTER (T_POINTER (id "v"))])])
    [T_ASSIGN (-5) (id "x") (id "c"); T_RETURN (-6) (num 5)].
Definition with_main : list tree := [init_int (-1) "x" (num 3); main_full].
Definition without_main : list tree := [init_int (-1) "x" (num 3); T_ASSIGN (-7) (id "x") (num 4)].
Definition with_both : list tree := [init_int (-1) "x" (num 3); fn_int (-3) "main" NULL [T_RETURN (-6) (num 5)]; T_ASSIGN (-7) (id "x") (num 4)].
Definition pointer_main : list tree :=
  [T_DECL (-1) (specs [T_CHAR_TS]) (CHAIN_HEAD [T_POINTER (T_FN (id "main") NULL NULL (CHAIN_HEAD [T_RETURN (-6) (num 5)]))])].

Lemma top_levelb l : Forall (fun i => declaration i \/ statement i) l -> top_level l.
Proof. auto. Qed.
Ltac a_declaration := eexists _, _, _; split; [reflexivity|]; right; eexists _, _; reflexivity.
Ltac a_statement := intros ? ? ?; discriminate.
Ltac not_main := intros ? Hm; inversion Hm.

Example C40_main_nontrivial : started env0 s0 /\ Forall declaration with_main /\ has_main with_main /\ main_parameters with_main 2 /\
  arguments env0 s0 [5000; 5100] (Ok tt (final_state (made [5000; 5100]))) /\
  script env0 s0 with_main [5000; 5100] (ran with_main [5000; 5100]) /\ kind_of (ran with_main [5000; 5100]) = KOk /\
  numberb env0 (final_state (ran with_main [5000; 5100])) (lookup (final_state (ran with_main [5000; 5100])) "x") 2 = true.
Proof.
  split; [exact started_s0|]. split; [repeat (constructor; [a_declaration|]); constructor|].
  split; [exists main_full, 2%nat; split; [right; left; reflexivity|constructor]|].
  split; [apply mp_other; [not_main|]; apply (mp_main main_full [] 2 0); constructor|].
  split; [apply made_ok; vm_compute; reflexivity|]. split; [apply ran_script; vm_compute; discriminate|].
  split; vm_compute; reflexivity.
Qed.

Example C40_no_main_nontrivial : top_level without_main /\ ~ has_main without_main /\
  script env0 s0 without_main [5000] (ran without_main [5000]) /\
  numberb env0 (final_state (ran without_main [5000])) (lookup (final_state (ran without_main [5000])) "x") 4 = true.
Proof.
  split; [constructor; [left; a_declaration|]; constructor; [right; a_statement|constructor]|].
  split; [intros (i & n & [<-|[<-|[]]] & Hm); inversion Hm|].
  split; [apply ran_script; vm_compute; discriminate|vm_compute; reflexivity].
Qed.

Example C40_mixed_nontrivial : top_level with_both /\ has_main with_both /\ (exists i, In i with_both /\ statement i) /\
  kind_of (ran with_both [5000]) = KExit 1.
Proof.
  split; [constructor; [left; a_declaration|]; constructor; [left; a_declaration|]; constructor; [right; a_statement|constructor]|].
  split; [eexists _, _; split; [right; left; reflexivity|constructor]|].
  split; [eexists; split; [right; right; left; reflexivity|a_statement]|]. vm_compute. reflexivity.
Qed.

(** [char *main() { return 5; }] does not count as main: its declarator is a pointer. *)
Example C40_pointer_main : top_level pointer_main /\ ~ has_main pointer_main /\ kind_of (ran pointer_main []) = KOk.
Proof.
  split; [constructor; [left; a_declaration|constructor]|].
  split; [intros (i & n & [<-|[]] & Hm); inversion Hm|]. vm_compute. reflexivity.
Qed.

(** * C41: the exit status *)

(** When main of the script has returned, whatever the value [v], the status is 0. *)
Theorem C41_main : forall E s l argv k s2 s3 v s4,
  executes E s l argv (l ++ [call_main k]) s2 -> items E l s2 s3 -> runs E s3 (call_main k) (Ok v s4) -> ends_list v = false ->
  (forall r, script E s l argv r <-> r = Ok 0 s4) /\ (forall n, script_status E s l argv n <-> n = 0).
Proof.
  intros E s l argv k s2 s3 v s4 H Hi Hc Hv. pose proof (main_ends E s l argv l _ s2 s3 v s4 H Hi Hc Hv) as Hr.
  split; [exact Hr|]. apply (only_status E s l argv _ 0 Hr). reflexivity.
Qed.
Print Assumptions C41_main.

(** [return e;] at top level ends the script with the value of [e] modulo 256 as status; what
    follows does not matter.  No break statement has been executed. *)
Theorem C41_return : forall E s l argv pre lbl e post s1 s2 v s3 z s4,
  started E s -> arguments E s argv (Ok tt s1) -> executes E s l argv (pre ++ T_RETURN lbl e :: post) s1 ->
  items E pre s1 s2 -> zfind lbl (ov_ret s2) = None -> runs E s2 e (Ok v s3) -> breaks s3 = breaks s ->
  int_value E (set_ov_ret (fun o => (lbl, v) :: o) s3) v (Ok z s4) ->
  (forall r, script E s l argv r <-> r = Exit (smod 32 z) s4) /\ (forall n, script_status E s l argv n <-> n = z mod 256).
Proof.
  intros E s l argv pre lbl e post s1 s2 v s3 z s4 H1 H2 H3 H4 H5 H6 H7 H8.
  pose proof (top_return E s l argv pre lbl e post s1 s2 v s3 z s4 H1 H2 H3 H4 H5 H6 H7 H8) as Hr.
  split; [exact Hr|]. apply (only_status E s l argv _ _ Hr). cbn. rewrite (smod_256). reflexivity.
Qed.
Print Assumptions C41_return.

Theorem C41_return_expression : forall E s l argv pre lbl e post s1 s2 rho v,
  started E s -> arguments E s argv (Ok tt s1) -> executes E s l argv (pre ++ T_RETURN lbl (syntax e) :: post) s1 ->
  items E pre s1 s2 -> zfind lbl (ov_ret s2) = None -> breaks s2 = breaks s ->
  computed e -> SpecPtr.reads E s2 rho e -> denote rho e = Some v ->
  forall n, script_status E s l argv n <-> n = v mod 256.
Proof.
  intros E s l argv pre lbl e post s1 s2 rho v H1 H2 H3 H4 H5 H6 H7 H8 H9.
  destruct (top_return_expr E s l argv pre lbl e post s1 s2 rho v H1 H2 H3 H4 H5 H6 H7 H8 H9) as [s3 Hr].
  apply (only_status E s l argv _ _ Hr). cbn. rewrite (smod_256). reflexivity.
Qed.
Print Assumptions C41_return_expression.

(** An item or the call of main that is an error ends the script with status 1; one that exits
    ends it with that status. *)
Theorem C41_error : forall E s l argv pre i post s2 s3 s4,
  executes E s l argv (pre ++ i :: post) s2 -> items E pre s2 s3 -> runs E s3 i (Die s4) ->
  (forall r, script E s l argv r <-> r = Die s4) /\ (forall n, script_status E s l argv n <-> n = 1).
Proof.
  intros E s l argv pre i post s2 s3 s4 H Hi Hr.
  assert (Ho : forall r, script E s l argv r <-> r = Die s4).
  { apply (item_stops E s l argv pre i post s2 s3 (Die s4) (Die s4) H Hi Hr); [intros ? ?; discriminate|constructor]. }
  split; [exact Ho|]. apply (only_status E s l argv _ 1 Ho). reflexivity.
Qed.
Print Assumptions C41_error.

Theorem C41_exit : forall E s l argv pre i post s2 s3 z s4,
  executes E s l argv (pre ++ i :: post) s2 -> items E pre s2 s3 -> runs E s3 i (Exit z s4) ->
  (forall r, script E s l argv r <-> r = Exit z s4) /\ (forall n, script_status E s l argv n <-> n = z mod 256).
Proof.
  intros E s l argv pre i post s2 s3 z s4 H Hi Hr.
  assert (Ho : forall r, script E s l argv r <-> r = Exit z s4).
  { apply (item_stops E s l argv pre i post s2 s3 (Exit z s4) (Exit z s4) H Hi Hr); [intros ? ?; discriminate|constructor]. }
  split; [exact Ho|]. apply (only_status E s l argv _ (z mod 256) Ho). reflexivity.
Qed.
Print Assumptions C41_exit.

(** A script with [int main(void)] does not run to its end: main is called with argc, and a function
    declared with [(void)] cannot be called (C18). *)
Theorem C41_main_void : forall E s l argv s2 s3 lbl rt body s4,
  executes E s l argv (l ++ [call_main 1]) s2 -> items E l s2 s3 ->
  runs E s3 (T_IDENTIFIER "main")
    (Ok (T_FN (T_IDENTIFIER "main") (CHAIN_HEAD [T_DECL lbl (CHAIN_HEAD [T_SPEC T_VOID_TS]) NULL]) rt body) s4) -> body <> NULL ->
  zfind lbl (statics s4) = None -> new_nodes_plain s4 ->
  forall r, script E s l argv r -> forall n s', r <> Ok n s'.
Proof.
  intros E s l argv s2 s3 lbl rt body s4 H Hi Hf Hb Hz Hp. eapply main_stops; [exact H|exact Hi|]. intros r Hr.
  eapply ArgFacts.void_params; [exact Hf|exact Hb| |exact Hr]. intros x v s5 [<-|[]] Hx. apply innermost in Hx. destruct Hx as [_ ->].
  split; [exact Hz|]. intros k Hk. apply Hp. cbn in Hk. lia.
Qed.
Print Assumptions C41_main_void.

(** [int x = 3; return x + 600; x = 1 / 0;] has the status 603 mod 256 = 91. *)
Definition returning : list tree :=
  [init_int (-1) "x" (num 3); T_RETURN (-2) (syntax (Bin ADD (Var "x") (Lit 600))); T_ASSIGN (-3) (id "x") (T_BINOP DIV (num 1) (num 0))].
Definition made0 : state := final_state (made []).
Definition x3 : state := final_state (outcome made0 (init_int (-1) "x" (num 3))).
Lemma returning_items : items env0 [init_int (-1) "x" (num 3)] made0 x3.
Proof.
  apply (items_cons env0 _ _ _ (id "x") x3); [|reflexivity|constructor].
  unfold x3. apply outcome_ok. vm_compute. reflexivity.
Qed.
Example C41_return_nontrivial : started env0 s0 /\ arguments env0 s0 [] (Ok tt made0) /\ executes env0 s0 returning [] returning made0 /\
  items env0 [init_int (-1) "x" (num 3)] made0 x3 /\ zfind (-2) (ov_ret x3) = None /\ breaks x3 = breaks s0 /\
  SpecPtr.reads env0 x3 (fun _ => 3) (Bin ADD (Var "x") (Lit 600)) /\ kind_of (ran returning []) = KExit 603.
Proof.
  assert (Ha : arguments env0 s0 [] (Ok tt made0)) by (apply made_ok; vm_compute; reflexivity).
  split; [exact started_s0|]. split; [exact Ha|]. split.
  { apply C40_no_main; [| |exact Ha].
    - constructor; [left; a_declaration|]; constructor; [right; a_statement|]; constructor; [right; a_statement|constructor].
    - intros (i & n & [<-|[<-|[<-|[]]]] & Hm); inversion Hm. }
  split; [exact returning_items|]. split; [vm_compute; reflexivity|]. split; [vm_compute; reflexivity|].
  split; [|vm_compute; reflexivity]. intros y [Hy|[]]. cbn in Hy. subst y. apply numberb_ok. vm_compute. reflexivity.
Qed.

(** The value 5 of main does not matter; an undeclared variable is an error. *)
Example C41_statuses : kind_of (ran with_main [5000; 5100]) = KOk /\ status (ran with_main [5000; 5100]) = Some 0 /\
  status (ran [T_ASSIGN (-1) (id "nothing") (num 1)] []) = Some 1 /\ status (ran with_both []) = Some 1 /\
  status (ran [fn_int (-3) "main" (CHAIN_HEAD [T_DECL (-4) (specs [T_VOID_TS]) NULL]) [T_RETURN (-6) (num 5)]] []) = Some 1.
Proof. repeat (split; [vm_compute; reflexivity|]). vm_compute. reflexivity. Qed.

Definition mains : state := final_state (outcome_body (final_state (made [5000; 5100])) (CHAIN_HEAD with_main)).
Example C41_main_nontrivial : value (outcome mains (call_main 2)) = Some (num 5).
Proof. vm_compute. reflexivity. Qed.

(** After a function has left a loop by break and has then reached its end, its activation is still the
    innermost one, and a return at top level jumps to it: [int f() { while (1) { break; } } f(); return 3;]. *)
Definition after_break : list tree :=
  [fn_int (-1) "f" NULL [T_LOOP_WHILE (num 1) (CHAIN_HEAD [T_BREAK])]; call "f" []; T_RETURN (-2) (num 3)].
Definition defined : state := final_state (outcome made0 (fn_int (-1) "f" NULL [T_LOOP_WHILE (num 1) (CHAIN_HEAD [T_BREAK])])).
Theorem C41_return_after_break_refuted : exists E s l pre lbl z, started E s /\ top_level l /\ ~ has_main l /\ l = pre ++ [T_RETURN lbl (T_INTEGER z)] /\
  (exists s1 s2, arguments E s [] (Ok tt s1) /\ items E pre s1 s2 /\ zfind lbl (ov_ret s2) = None) /\
  script E s l [] UB /\ forall n, ~ script_status E s l [] n.
Proof.
  exists env0, s0, after_break, [fn_int (-1) "f" NULL [T_LOOP_WHILE (num 1) (CHAIN_HEAD [T_BREAK])]; call "f" []], (-2), 3.
  split; [exact started_s0|].
  assert (Ht : top_level after_break).
  { constructor; [left; a_declaration|]; constructor; [right; a_statement|]; constructor; [right; a_statement|constructor]. }
  assert (Hm : ~ has_main after_break).
  { intros (i & n & [<-|[<-|[<-|[]]]] & Hm); inversion Hm. }
  split; [exact Ht|]. split; [exact Hm|]. split; [reflexivity|].
  assert (Ha : arguments env0 s0 [] (Ok tt made0)) by (apply made_ok; vm_compute; reflexivity).
  split.
  - exists made0, (final_state (outcome defined (call "f" []))). split; [exact Ha|]. split; [|vm_compute; reflexivity].
    eapply (items_cons env0 _ _ _ _ defined); [unfold defined; apply outcome_ok; vm_compute; reflexivity|reflexivity|].
    eapply (items_cons env0 _ _ _ _ (final_state (outcome defined (call "f" [])))); [apply outcome_ok; vm_compute; reflexivity|reflexivity|constructor].
  - assert (Hk : kind_of (ran after_break []) = KUB) by (vm_compute; reflexivity).
    pose proof (ran_script after_break [] ltac:(rewrite Hk; discriminate)) as Hr.
    assert (Hu : ran after_break [] = UB) by (revert Hk; destruct (ran after_break []); cbn; congruence).
    rewrite Hu in Hr. split; [exact Hr|]. intros n (r & H & Hs). 
    apply (C40_no_main _ _ _ _ _ Ht Hm Ha) in Hr. destruct Hr as (o & B & He).
    apply (executes_only env0 s0 after_break [] after_break made0 o UB (C40_no_main _ _ _ _ _ Ht Hm Ha) B He) in H. subst r. discriminate.
Qed.
Print Assumptions C41_return_after_break_refuted.

(** * C42: the arguments *)

(** From the start the interpreter makes argc and argv, or memory is refused; no other name and no
    storage in use changes, and nothing external is called. *)
Theorem C42_arguments : forall E s argv, started E s -> argument_vector argv ->
  (exists k s', arguments E s argv (NoMemory k s') /\ refuses E k s' /\ (k = 16 \/ k = 8 * Z.of_nat (List.length argv))) \/
  exists s', arguments E s argv (Ok tt s') /\ reachable E s' /\ has_arguments E s' argv /\ untouched E s s' /\ undisturbed s s' /\
    (forall x, x <> "argc" -> x <> "argv" -> lookup s' x = lookup s x).
Proof. exact arguments_made. Qed.
Print Assumptions C42_arguments.

(** What the script then sees: argc is the number of arguments, [argv[e]] is a pointer to the argument
    number [e]. *)
Theorem C42_expressions : forall E s argv, reachable E s -> argument_vector argv -> has_arguments E s argv ->
  (exists a, runs E s (T_IDENTIFIER "argc") (Ok (T_LIVE_VAR (D_T D_T_INT) a false 0) s) /\ storage E s a 4 /\
    value_at s D_T_INT a = Z.of_nat (List.length argv)) /\
  forall rho e i q, SpecPtr.reads E s rho e -> denote rho e = Some (Z.of_nat i) -> nth_error argv i = Some q ->
    let t := T_ARRAY_ACCESS (T_IDENTIFIER "argv") (syntax e) in
    out_of_memory E s t 16 \/ exists a s', runs E s t (Ok (T_LIVE_VAR (D_T_PTR (D_T D_T_CHAR)) a false 0) s') /\ only_new E s [] s' /\
      storage E s' a 8 /\ unsigned_at (mem s') a 8 = q.
Proof. intros E s argv Hr. apply arguments_used. apply (reachable_nonempty E s Hr). Qed.
Print Assumptions C42_expressions.

Example C42_nontrivial : started env0 s0 /\ argument_vector [5000; 2 ^ 64 - 1] /\ value (made [5000; 2 ^ 64 - 1]) = Some tt /\
  exists s', arguments env0 s0 [5000; 2 ^ 64 - 1] (Ok tt s') /\ has_arguments env0 s' [5000; 2 ^ 64 - 1].
Proof.
  assert (Ha : argument_vector [5000; 2 ^ 64 - 1]).
  { split; [cbn; lia|]. repeat constructor; lia. }
  assert (Hv : value (made [5000; 2 ^ 64 - 1]) = Some tt) by (vm_compute; reflexivity).
  split; [exact started_s0|]. split; [exact Ha|]. split; [exact Hv|].
  destruct (C42_arguments env0 s0 _ started_s0 Ha) as [(k & s' & H & _)|(s' & H & _ & H1 & _)]; [|exists s'; auto].
  exfalso. pose proof (arguments_fun env0 _ _ _ _ H (made_ok _ Hv)) as Hf. clear - Hf. revert Hf. generalize (final_state (made [5000; 2 ^ 64 - 1])). intros s Hf. discriminate.
Qed.
