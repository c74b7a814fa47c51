(** Proofs about the number of arguments. *)
From Coq Require Import ZArith List String Bool Lia.
From Verif Require Import CInt Tree State Eval StepsFacts SpecRun RunFacts RunRules
  SpecControl SpecStmt ControlFacts CallFacts SpecTypes SpecVars VarFacts SpecCalls.
Import ListNotations.
Local Open Scope Z_scope.
Local Open Scope m_scope.
Local Open Scope list_scope.

Section Args.
Variable E : env.

(** A call, once the function is known. *)
Lemma call_lim_iff f args s name params rt body s1 r : r <> Fuel ->
  runs E s f (Ok (T_FN (T_IDENTIFIER name) params rt body) s1) -> body <> NULL ->
  (runs E s (T_FN_CALL f args) r <-> lim E (fun k => call_defined E k (T_IDENTIFIER name) params body args) s1 r).
Proof.
  intros Hr Hf Hb. split; [|eapply call_lim; eauto]. intros H. apply runs_lim in H.
  apply lim_ev in Hf. destruct H as [n H], Hf as [m Hf]. exists (n + m)%nat. intros j Hj.
  specialize (H j ltac:(lia)). specialize (Hf j ltac:(lia)). cbn [evaluate_1] in H. unfold eval_fn_call in H.
  unfold bind at 1 in H. rewrite Hf in H. cbn beta iota in H.
  destruct body; try congruence; exact H.
Qed.

(** The part of the call after the new scope exists. *)
Lemma call_opened name params body args s r :
  lim E (fun k => call_defined E k (T_IDENTIFIER name) params body args) s r <->
  lim E (fun k => match params with NULL => ret tt
    | _ => if Nat.eqb (List.length (chain_elems args)) (List.length (chain_elems params))
           then bind_params E k (chain_elems params) (chain_elems args) else die end ;;
    jmp_ctx <- top ;; catch (c_id jmp_ctx) (evaluate_stmts E k body) (fun _ => pop_ctx ;; ret NULL)
      (pop_until (fresh s) ;; c <- top ;; pop_ctx ;; ret (c_retval c))) (open_activation E name s) r.
Proof. split; intros [n H]; exists n; intros j Hj; rewrite <- (H j Hj); reflexivity. Qed.

Theorem count_mismatch f args name params rt body s s1 :
  runs E s f (Ok (T_FN (T_IDENTIFIER name) params rt body) s1) -> body <> NULL -> params <> NULL ->
  List.length (chain_elems args) <> List.length (chain_elems params) ->
  runs E s (T_FN_CALL f args) (Die (open_activation E name s1)).
Proof.
  intros Hf Hb Hp Hn. eapply call_lim_iff; eauto; try discriminate. apply call_opened.
  apply Nat.eqb_neq in Hn. apply lim_const. intros k. destruct params; try congruence; rewrite Hn; reflexivity.
Qed.

Theorem no_params f args args' name rt body s s1 r :
  runs E s f (Ok (T_FN (T_IDENTIFIER name) NULL rt body) s1) -> body <> NULL ->
  runs E s (T_FN_CALL f args) r -> runs E s (T_FN_CALL f args') r.
Proof.
  intros Hf Hb H. assert (Hr : r <> Fuel) by apply H.
  apply (call_lim_iff _ _ _ _ _ _ _ _ _ Hr Hf Hb) in H. apply (call_lim_iff _ _ _ _ _ _ _ _ _ Hr Hf Hb).
  apply call_opened in H. apply call_opened. exact H.
Qed.

Lemma void_decl k l s : zfind l (statics s) = None ->
  exists s', evaluate_1 E k (T_DECL l (CHAIN_HEAD [T_SPEC T_VOID_TS]) NULL) s = Ok NULL s' /\
    ov_asn s' = ov_asn s /\ fresh s' = fresh s.
Proof.
  intros Hl. exists (after_tick E s). split; [|split; reflexivity].
  cbn [evaluate_1]. rewrite Hl. reflexivity.
Qed.

Theorem void_params f args name l rt body s s1 r :
  let params := CHAIN_HEAD [T_DECL l (CHAIN_HEAD [T_SPEC T_VOID_TS]) NULL] in
  runs E s f (Ok (T_FN (T_IDENTIFIER name) params rt body) s1) -> body <> NULL ->
  (forall x v s2, In x (chain_elems args) -> runs E (open_activation E name s1) x (Ok v s2) ->
     zfind l (statics s2) = None /\ new_nodes_plain s2) ->
  runs E s (T_FN_CALL f args) r -> stops r.
Proof.
  intros params Hf Hb Hs H. assert (Hr : r <> Fuel) by apply H.
  destruct (Nat.eq_dec (List.length (chain_elems args)) 1) as [Hone|Hone].
  2:{ rewrite (runs_fun _ _ _ _ _ H (count_mismatch _ _ _ _ _ _ _ _ Hf Hb ltac:(discriminate) Hone)). intros a s'. discriminate. }
  apply (call_lim_iff _ _ _ _ _ _ _ _ _ Hr Hf Hb) in H. apply call_opened in H.
  unfold params in H. cbn [chain_elems List.length] in H. rewrite Hone, Nat.eqb_refl in H.
  destruct (chain_elems args) as [|x [|y xs]]; try discriminate Hone. clear Hone.
  set (s0 := open_activation E name s1) in *. intros v s' ->.
  cbn [bind_params] in H. unfold bind_param in H.
  destruct H as [n H]. specialize (H (S n) ltac:(lia)).
  unfold bind at 1 2 3 4 in H. destruct (k_ev (K E (S n)) x s0) as [w s2| | | | | | | |] eqn:Hx; try discriminate H.
  destruct (Hs x w s2 (or_introl eq_refl) (runs_intro E s0 x _ (S n) Hx ltac:(discriminate))) as [Hl Hf2].
  destruct (void_decl (K E n) l s2 Hl) as (s3 & Hd & Ho & Hfr).
  change (k_ev (K E (S n)) (T_DECL l (CHAIN_HEAD [T_SPEC T_VOID_TS]) NULL) s2) with
    (evaluate_1 E (K E n) (T_DECL l (CHAIN_HEAD [T_SPEC T_VOID_TS]) NULL) s2) in H.
  rewrite Hd in H. cbn beta iota in H. unfold bind at 1 2 3 in H. rewrite tick_eq in H. unfold fresh_id in H. cbn beta iota in H.
  set (s4 := set_fresh _ _) in H.
  change (k_ev (K E (S n)) (T_ASSIGN (fresh (after_tick E s3)) NULL w) s4) with
    (eval_assign E (K E n) (fresh (after_tick E s3)) NULL w s4) in H.
  unfold eval_assign, assign_lhs in H. unfold bind at 1 2 3, get in H.
  change (ov_asn s4) with (ov_asn s3) in H. change (fresh (after_tick E s3)) with (fresh s3) in H.
  rewrite Ho, (Hf2 (fresh s3)) in H by (rewrite Hfr; lia).
  destruct n as [|n]; [discriminate H|].
  change (k_ev (K E (S n)) NULL s4) with (Ok NULL s4) in H. cbn beta iota in H.
  unfold bind at 1 in H. destruct (k_ev (K E (S n)) w s4); discriminate H.
Qed.

End Args.
