(** Proofs about the builtin functions: C74. *)
From Coq Require Import ZArith List String Bool Lia.
From Verif Require Import CInt Tree State Eval StepsFacts SpecRun SpecNames SpecVars SpecPtr SpecExt SpecCScript SpecBuiltin SpecControl ExprFacts
  RunFacts RunRules NameFacts PtrFacts ExtFacts CScriptFacts.
Import ListNotations.
Local Open Scope string_scope.
Local Open Scope Z_scope.
Local Open Scope list_scope.
Local Open Scope m_scope.

Section Builtin.
Variable E : env.

(** ** The call *)

Lemma handle_eq k b ts s : (List.length ts <= 3)%nat ->
  handle_builtin E k b (args_tree ts) s = k_ev k (T_FN_CALL (T_IDENTIFIER (library_function b)) (args_tree (firstn 2 ts))) (after_tick E s).
Proof.
  intros H. unfold handle_builtin. rewrite (bind_eq _ _ _ _ _ _ _ (tick_eq E s)). cbv zeta.
  destruct ts as [|t1 [|t2 [|t3 [|t4 ts]]]]; cbn in H; try lia; destruct b; reflexivity.
Qed.

Lemma builtin_call b f ts s s1 : runs E s f (Ok (T_BUILTIN b) s1) -> (List.length ts <= 3)%nat ->
  forall r, runs E s (T_FN_CALL f (args_tree ts)) r <->
    runs E (after_tick E s1) (T_FN_CALL (T_IDENTIFIER (library_function b)) (args_tree (firstn 2 ts))) r.
Proof.
  intros Hf Hl.
  assert (L : forall r, lim E (fun k => k_ev k (T_FN_CALL (T_IDENTIFIER (library_function b)) (args_tree (firstn 2 ts)))) (after_tick E s1) r ->
    lim E (fun k => evaluate_1 E k (T_FN_CALL f (args_tree ts))) s r).
  { intros r H. cbn [evaluate_1]. unfold eval_fn_call.
    eapply lim_bind; [apply lim_ev, Hf|].
    eapply (lim_bind E); [apply lim_pure; reflexivity|]. cbv beta iota.
    eapply lim_after; [|exact H]. intros k. apply handle_eq, Hl. }
  intros r. split.
  - intros H. assert (Hr : r <> Fuel) by apply H. apply lim_ev_runs; [exact Hr|].
    apply runs_lim in H. cbn [evaluate_1] in H. unfold eval_fn_call in H.
    destruct H as [n H]. destruct (lim_ev E _ _ _ Hf) as [n' Hn'].
    exists (Nat.max n n'). intros m Hm. specialize (H m ltac:(lia)).
    rewrite (bind_eq _ _ _ _ _ _ _ (Hn' m ltac:(lia))) in H. cbv beta iota in H.
    unfold bind at 1 in H. unfold ret at 1 in H. rewrite (handle_eq _ b ts s1 Hl) in H. exact H.
  - intros H. apply lim_runs; [apply H|]. apply L, lim_ev, H.
Qed.

(** ** The names *)

Lemma init_lookup m ext s : eval_init E (start_state m ext) = Ok tt s ->
  exists c c', stack s = [c; c'] /\ c_idmap c = [] /\ c_idmap c' = known_names /\ incl s = None.
Proof.
  unfold eval_init.
  assert (H0 : quiet (start_state m ext)) by (repeat split; cbn; lia).
  assert (H0s : stack (start_state m ext) = []) by reflexivity.
  revert H0 H0s. generalize (start_state m ext). intros s0 H0 H0s.
  rewrite (bind_eq _ _ _ _ _ _ _ (push_open E _ _)).
  assert (H1 : exists c, stack (open_scope E "Bultins" s0) = [c] /\ c_idmap c = [] /\ c_isfn c = false).
  { eexists. rewrite open_stack, H0s. split; [reflexivity|]. split; reflexivity. }
  apply (quiet_open E "Bultins") in H0. revert H0 H1. generalize (open_scope E "Bultins" s0). clear. intros s1 Q1 (c1 & S1 & M1 & F1).
  destruct (map_step E "__builtin_va_list" (D_T D_T_INT) s1 c1 [] S1 Q1) as (s2 & R2 & Q2 & c2 & S2 & M2 & F2); auto; [rewrite M1; reflexivity|].
  rewrite (bind_eq _ _ _ _ _ _ _ R2).
  destruct (map_step E "__builtin___strcpy_chk" (T_BUILTIN strcpy_chk) s2 c2 [] S2 Q2) as (s3 & R3 & Q3 & c3 & S3 & M3 & F3); auto; [rewrite M2, M1; reflexivity|].
  rewrite (bind_eq _ _ _ _ _ _ _ R3).
  destruct (map_step E "__builtin___strcat_chk" (T_BUILTIN strcat_chk) s3 c3 [] S3 Q3) as (s4 & R4 & Q4 & c4 & S4 & M4 & F4); auto; [rewrite M3, M2, M1; reflexivity|].
  rewrite (bind_eq _ _ _ _ _ _ _ R4). rewrite (bind_eq _ _ _ _ _ _ _ (push_open E _ _)).
  rewrite tick_eq. intros H. injection H as <-.
  eexists _, c4. split; [change (stack (after_tick E (open_scope E "Toplevel" s4))) with (stack (open_scope E "Toplevel" s4));
    rewrite open_stack, S4; reflexivity|]. split; [reflexivity|]. split; [rewrite M4, M3, M2, M1; reflexivity|].
  change (incl (after_tick E (open_scope E "Toplevel" s4))) with (incl s4). apply Q4.
Qed.

Lemma nodup_entry (m : list (string * tree)) x v : NoDup (map fst m) -> entry m x v <-> In (x, v) m.
Proof.
  intros Hd. split.
  - intros (m1 & m2 & -> & _). apply in_or_app. right. left. reflexivity.
  - intros H. apply in_split in H as (m1 & m2 & ->). exists m1, m2. split; [reflexivity|].
    rewrite map_app in Hd. cbn [map fst] in Hd. apply NoDup_remove_2 in Hd. intros H. apply Hd. apply in_or_app. left. exact H.
Qed.

Lemma known_nodup : NoDup (map fst known_names).
Proof. repeat constructor; cbn; intuition discriminate. Qed.

Lemma started_names s x v : started E s -> means s x v <-> In (x, v) known_names.
Proof.
  intros (m & ext & _ & H). destruct (init_lookup _ _ _ H) as (c & c' & S & M & M' & I).
  assert (N : forall d y, c_idmap d = [] -> ~ declares d y).
  { intros d y Hd (w & _ & m1 & m2 & He & _). rewrite Hd in He. destruct m1; discriminate He. }
  assert (K : forall w, In (x, w) known_names -> w <> NULL).
  { intros w [H0|[H0|[H0|[]]]]; injection H0 as _ <-; discriminate. }
  unfold means, visible. rewrite S, I. cbn [app]. split.
  - intros (inner & d & outer & Hl & Hi & Hv & He). destruct inner as [|e inner]; injection Hl as -> Hl.
    + exfalso. apply (N d x M). exists v. auto.
    + destruct inner as [|e' inner]; injection Hl as -> Hl; [|destruct inner; discriminate Hl].
      rewrite M' in He. apply nodup_entry in He; auto using known_nodup.
  - intros H1. exists [c], c', []. split; [reflexivity|]. split; [intros d [<-|[]]; apply N, M|]. split; [apply K, H1|].
    rewrite M'. apply nodup_entry; auto using known_nodup.
Qed.

(** ** The library is called *)

Lemma returns_tick s a bits : returns_at_once E s a bits -> returns_at_once E (after_tick E s) a bits.
Proof.
  intros (H1 & H2 & H3 & H4). split; [exact H1|]. split; [exact H2|]. split; [|exact H4].
  intros c Hc. apply H3. unfold after_tick in Hc. cbn [closures set_ticks set_closures set_blocks] in Hc. apply filter_In in Hc. apply Hc.
Qed.

Lemma passes_mem s s' q v a : mem s' = mem s -> passes E s' q v a -> passes E s q v a.
Proof.
  intros Hm P. destruct P.
  - apply pass_string.
  - rewrite Hm. apply pass_pointer.
  - apply pass_constant. assumption.
  - apply pass_float.
  - replace (value_at s' c a) with (value_at s c a) by (unfold value_at; rewrite Hm; reflexivity). apply pass_integer. assumption.
  - subst bits. rewrite Hm. apply pass_floating. assumption.
Qed.

Lemma library_called b f ps rt d src n vs p s s1 bits : stack s1 <> [] ->
  runs E s f (Ok (T_BUILTIN b) s1) ->
  means s1 (library_function b) (T_FN (T_IDENTIFIER (library_function b)) (args_tree ps) rt NULL) ->
  ellipsis ps p -> result_type rt -> Forall2 (simple E s1) [d; src] vs ->
  returns_at_once E s1 (e_dlsym E (library_function b)) bits ->
  out_of_memory E s (T_FN_CALL f (args_tree [d; src; n])) 16 \/
  exists s2 args v s', only_gc E s1 s2 /\ runs E s (T_FN_CALL f (args_tree [d; src; n])) (Ok v s') /\ passed_as E s1 p vs args /\
    calls_since s1 s' [EvCall (e_dlsym E (library_function b)) args] /\ result E s2 s' bits rt v /\ kept E s1 s'.
Proof.
  intros Hs Hf Hm Hp Hrt Hv Ho.
  pose proof (builtin_call b f [d; src; n] s s1 Hf ltac:(cbn; lia)) as B. cbn [firstn] in B.
  assert (G := gc_only_tick E s1). revert B G. assert (Ho' := returns_tick _ _ _ Ho). revert Ho'.
  generalize (after_tick E s1). intros s2 Ho' B G.
  assert (Hn := only_new_gc E s1 s2 Hs G).
  assert (Hs2 : stack s2 <> []) by (rewrite (sg_stack _ _ (proj1 G)); exact Hs).
  assert (Hm2 : means s2 (library_function b) (T_FN (T_IDENTIFIER (library_function b)) (args_tree ps) rt NULL)).
  { apply means_lookup; [discriminate|]. rewrite (lookup_gc _ _ _ (proj1 G)). apply means_lookup; [discriminate|exact Hm]. }
  assert (Hv2 : Forall2 (simple E s2) [d; src] vs).
  { revert Hv. apply Forall2_impl. intros t v. apply (simple_new E s1 [] s2); auto. }
  assert (Hf2 : function E s2 (T_IDENTIFIER (library_function b)) (T_FN (T_IDENTIFIER (library_function b)) (args_tree ps) rt NULL) s2).
  { apply function_plain; [|discriminate]. apply innermost. auto. }
  assert (H : out_of_memory E s2 (T_FN_CALL (T_IDENTIFIER (library_function b)) (args_tree [d; src])) 16 \/
    exists args v s', runs E s2 (T_FN_CALL (T_IDENTIFIER (library_function b)) (args_tree [d; src])) (Ok v s') /\ passed_as E s2 p vs args /\
    calls_since s2 s' [EvCall (e_dlsym E (library_function b)) args] /\ result E s2 s' bits rt v /\ kept E s2 s').
  { destruct (reach_named E _ _ ps rt _ vs p s2 s2 Hs2 Hf2 Hp Hv2 (proj1 Ho')) as [H|(rl & s3 & H1 & H2 & H3 & H4)]; [left; exact H|].
    eapply once_end; eauto. cbn. lia. }
  destruct H as [(s' & H & R)|(args & v & s' & H1 & H2 & H3 & H4 & H5)].
  - left. exists s'. split; [apply B, H|exact R].
  - right. exists s2, args, v, s'. split; [exact G|]. split; [apply B, H1|]. split.
    { destruct H2 as [L P]. split; [exact L|]. intros i w a Hw Ha. specialize (P i w a Hw Ha).
      exact (passes_mem _ _ _ _ _ (sg_mem _ _ (proj1 G)) P). }
    split; [unfold calls_since in *; rewrite H3, (sg_trace _ _ (proj1 G)); reflexivity|]. split; [exact H4|].
    eapply kept_trans; [apply kept_gc, G|exact H5].
Qed.

Lemma undeclared_call x args s r : (forall v, ~ means s x v) -> runs E s (T_FN_CALL (T_IDENTIFIER x) args) r <-> r = Die s.
Proof.
  intros Hm. apply (unbound E) in Hm.
  assert (H : runs E s (T_FN_CALL (T_IDENTIFIER x) args) (Die s)).
  { apply lim_runs; [discriminate|]. cbn [evaluate_1]. unfold eval_fn_call.
    apply (lim_bind_fail E _ _ _ _ s (Die s)); [apply lim_ev, Hm|reflexivity]. }
  split; [intros H'; eapply runs_fun; eauto|intros ->; exact H].
Qed.

End Builtin.
