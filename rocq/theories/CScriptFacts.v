(** Proofs about scripts: C40 - C42. *)
From Coq Require Import ZArith List String Bool Lia.
From Verif Require Import CInt Tree State Eval CScript StepsFacts SpecRun SpecNames SpecTypes SpecExpr SpecVars SpecPtr SpecControl SpecStmt
  SpecCScript CIntFacts SpecScope EvalInv ScopeFacts RunFacts RunRules ExprFacts ControlFacts StmtFacts CallFacts OnceFacts NameFacts VarFacts PtrFacts.
Import ListNotations.
Local Open Scope string_scope.
Local Open Scope Z_scope.
Local Open Scope list_scope.
Local Open Scope m_scope.

Section Script.
Variable E : env.

(** ** The start *)

Definition quiet (s : state) : Prop :=
  ov_asn s = [] /\ ov_ret s = [] /\ statics s = [] /\ incl s = None /\ breaks s = 0 /\ 0 <= fresh s.

Lemma push_open name s : push_ctx E name s = Ok tt (open_scope E name s).
Proof. reflexivity. Qed.
Lemma open_stack name s : stack (open_scope E name s) = mkctx (fresh s) name [] [] [] [] NULL false false :: stack s.
Proof. reflexivity. Qed.
Lemma quiet_open name s : quiet s -> quiet (open_scope E name s).
Proof. intros (H1 & H2 & H3 & H4 & H5 & H6). repeat split; auto. cbn. lia. Qed.
Lemma quiet_mapped x v s : quiet s -> quiet (mapped E x v s).
Proof. intros H. exact H. Qed.
Lemma quiet_tick s : quiet s -> quiet (after_tick E s).
Proof. intros H. exact H. Qed.

Lemma map_step x v s c cs : stack s = c :: cs -> quiet s -> resolve_id x (c_idmap c) = NULL -> c_isfn c = false ->
  exists s', map_identifier E (T_IDENTIFIER x) v s = Ok tt s' /\ quiet s' /\
    exists c', stack s' = c' :: cs /\ c_idmap c' = c_idmap c ++ [(x, v)] /\ c_isfn c' = false.
Proof.
  intros Hs Hq Hx Hf. exists (mapped E x v s). rewrite (map_identifier_cases E x v s c cs Hs), Hx.
  split; [reflexivity|]. split; [apply quiet_mapped, Hq|]. eexists. split.
  - unfold mapped, with_top. cbn [stack set_stack]. change (stack (after_tick E s)) with (stack s). rewrite Hs. reflexivity.
  - split; [reflexivity|exact Hf].
Qed.

Lemma init_ok m ext : exists s, eval_init E (start_state m ext) = Ok tt s /\
  (exists c c', stack s = [c; c'] /\ c_idmap c = [] /\ c_isfn c = false /\ c_isfn c' = false) /\ quiet s.
Proof.
  unfold eval_init.
  assert (H0 : quiet (start_state m ext)) by (repeat split; cbn; lia).
  assert (H0s : stack (start_state m ext) = []) by reflexivity.
  revert H0 H0s. generalize (start_state m ext). intros s0 H0 H0s.
  rewrite (bind_eq _ _ _ _ _ _ _ (push_open _ _)).
  assert (H1 : exists c, stack (open_scope E "Bultins" s0) = [c] /\ c_idmap c = [] /\ c_isfn c = false).
  { eexists. rewrite open_stack, H0s. split; [reflexivity|]. split; reflexivity. }
  apply (quiet_open "Bultins") in H0. revert H0 H1. generalize (open_scope E "Bultins" s0). clear. intros s1 Q1 (c1 & S1 & M1 & F1).
  destruct (map_step "__builtin_va_list" (D_T D_T_INT) s1 c1 [] S1 Q1) as (s2 & R2 & Q2 & c2 & S2 & M2 & F2); auto; [rewrite M1; reflexivity|].
  rewrite (bind_eq _ _ _ _ _ _ _ R2).
  destruct (map_step "__builtin___strcpy_chk" (T_BUILTIN strcpy_chk) s2 c2 [] S2 Q2) as (s3 & R3 & Q3 & c3 & S3 & M3 & F3); auto; [rewrite M2, M1; reflexivity|].
  rewrite (bind_eq _ _ _ _ _ _ _ R3).
  destruct (map_step "__builtin___strcat_chk" (T_BUILTIN strcat_chk) s3 c3 [] S3 Q3) as (s4 & R4 & Q4 & c4 & S4 & M4 & F4); auto; [rewrite M3, M2, M1; reflexivity|].
  rewrite (bind_eq _ _ _ _ _ _ _ R4). rewrite (bind_eq _ _ _ _ _ _ _ (push_open _ _)).
  eexists. split; [apply tick_eq|]. split; [|apply quiet_tick, quiet_open, Q4].
  eexists _, c4. split; [change (stack (after_tick E (open_scope E "Toplevel" s4))) with (stack (open_scope E "Toplevel" s4));
    rewrite open_stack, S4; reflexivity|]. split; [reflexivity|]. split; [reflexivity|exact F4].
Qed.

Lemma started_facts s : started E s ->
  reachable E s /\ (exists c c', stack s = [c; c'] /\ c_idmap c = [] /\ c_isfn c = false /\ c_isfn c' = false) /\ quiet s.
Proof.
  intros (m & ext & Hb & H). split; [apply (reach_init E m ext); auto|].
  destruct (init_ok m ext) as (s' & H' & R). rewrite H in H'. injection H' as <-. exact R.
Qed.

(** ** Making nodes *)

(** Nothing but new identities and garbage collection. *)
Definition fresher (s s' : state) : Prop := fresh s <= fresh s' /\ only_gc E (set_fresh (fun _ => fresh s') s) s'.

Lemma fresher_refl s : fresher s s.
Proof. split; [lia|]. destruct s. apply gc_only_refl. Qed.

Lemma fresher_gc s s' : only_gc E s s' -> fresher s s'.
Proof.
  intros H. assert (Hf : fresh s' = fresh s) by apply H. split; [lia|]. rewrite Hf.
  replace (set_fresh (fun _ => fresh s) s) with s by (destruct s; reflexivity). exact H.
Qed.

Lemma only_gc_set_fresh f s s' : only_gc E s s' -> only_gc E (set_fresh f s) (set_fresh (fun _ => f (fresh s)) s').
Proof.
  intros [[] [H2 H3]]. split; [|split; [exact H2|exact H3]]. constructor; auto.
Qed.

Lemma fresher_trans s1 s2 s3 : fresher s1 s2 -> fresher s2 s3 -> fresher s1 s3.
Proof.
  intros [L1 G1] [L2 G2]. split; [lia|]. eapply gc_only_trans; [|exact G2].
  apply (only_gc_set_fresh (fun _ => fresh s3)) in G1. exact G1.
Qed.

Lemma fresher_fresh s : fresher s (set_fresh (fun n => n + 1) s).
Proof. split; [cbn; lia|]. apply gc_only_refl. Qed.

Lemma fresher_tick s : fresher s (after_tick E s).
Proof. apply fresher_gc, gc_only_tick. Qed.

Lemma node_made s : exists s', new_node E s = Ok (fresh s) s' /\ fresher s s' /\ fresh s < fresh s'.
Proof.
  eexists. split; [reflexivity|]. split; [|cbn; lia].
  eapply fresher_trans; [apply fresher_tick|apply fresher_fresh].
Qed.

Lemma tick_made A (x : A) s : exists s', bind (tick E) (fun _ => ret x) s = Ok x s' /\ fresher s s'.
Proof. eexists. split; [reflexivity|apply fresher_tick]. Qed.

Ltac node H := match goal with |- context [bind (new_node E) _ ?s] =>
  destruct (node_made s) as (? & H & ? & ?); rewrite (bind_eq _ _ _ _ _ _ _ H); clear H end.
Ltac leaf H := match goal with
  | |- context [bind (tick E) _ ?s] => rewrite (bind_eq _ _ _ _ _ _ _ (tick_eq E s)); pose proof (fresher_tick s); 
      let s' := fresh "s" in set (s' := after_tick E s) in *; clearbody s'
  | |- context [bind (get_identifier E ?x) _ ?s] => destruct (tick_made _ (T_IDENTIFIER x) s) as (? & H & ?); 
      fold (get_identifier E x) in H; rewrite (bind_eq _ _ _ _ _ _ _ H); clear H
  | |- context [bind (get_integer E ?x) _ ?s] => destruct (tick_made _ (T_INTEGER (x mod 2 ^ 32)) s) as (? & H & ?); 
      fold (get_integer E x) in H; rewrite (bind_eq _ _ _ _ _ _ _ H); clear H
  | |- context [bind (get_addr E ?x) _ ?s] => destruct (tick_made _ (T_INTEGER (u64 x)) s) as (? & H & ?); 
      fold (get_addr E x) in H; rewrite (bind_eq _ _ _ _ _ _ _ H); clear H
  | |- context [bind (tree_chain_head E ?x) _ ?s] => destruct (tick_made _ (CHAIN_HEAD [x]) s) as (? & H & ?); 
      fold (tree_chain_head E x) in H; rewrite (bind_eq _ _ _ _ _ _ _ H); clear H
  end.
Ltac chain := solve [repeat match goal with H : fresher ?a ?b |- fresher ?a ?c => first [exact H | apply (fresher_trans a b c H); clear H] end; apply fresher_refl].
Ltac bounds := repeat match goal with H : fresher _ _ |- _ => apply proj1 in H end; lia.

Lemma argc_made n s : exists d a s', argc_decl E n s =
    Ok (T_DECL d (CHAIN_HEAD [T_SPEC T_INT_TS]) (T_ASSIGN a (T_IDENTIFIER "argc") (T_INTEGER (n mod 2 ^ 32)))) s' /\
  fresher s s' /\ a < fresh s'.
Proof.
  unfold argc_decl. node Hq. node Hq. leaf Hq. leaf Hq. leaf Hq. leaf Hq.
  eexists _, _, _. split; [reflexivity|]. split; [chain|bounds].
Qed.

Lemma argv_made n s : exists d s', argv_decl E n s =
    Ok (T_DECL d (CHAIN_HEAD [T_SPEC T_CHAR_TS]) (T_POINTER (T_ARRAY (T_IDENTIFIER "argv") (T_INTEGER (n mod 2 ^ 32))))) s' /\ fresher s s'.
Proof.
  unfold argv_decl. node Hq. leaf Hq. leaf Hq. leaf Hq. leaf Hq. leaf Hq. leaf Hq.
  eexists _, _. split; [reflexivity|chain].
Qed.

Inductive assigns (lo : Z) : Z -> list Z -> list tree -> Prop :=
| as_nil i : assigns lo i [] []
| as_cons i p ps a l : lo <= a -> assigns lo (i + 1) ps l ->
    assigns lo i (p :: ps) (T_ASSIGN a (T_ARRAY_ACCESS (T_IDENTIFIER "argv") (T_INTEGER (i mod 2 ^ 32))) (T_INTEGER (u64 p)) :: l).

Lemma assigns_made lo argv : forall i s, lo <= fresh s -> exists l s', argv_assigns E i argv s = Ok l s' /\ fresher s s' /\ assigns lo i argv l.
Proof.
  induction argv as [|p argv IH]; intros i s Hs; cbn [argv_assigns].
  - eexists _, _. split; [reflexivity|]. split; [apply fresher_refl|constructor].
  - node Hq. leaf Hq. leaf Hq. leaf Hq. leaf Hq.
    match goal with |- context [bind (argv_assigns E (i + 1) argv) _ ?s1] =>
      destruct (IH (i + 1) s1) as (l & s' & Hq & G & A); [bounds|]; rewrite (bind_eq _ _ _ _ _ _ _ Hq) end.
    eexists _, _. split; [reflexivity|]. split; [chain|]. constructor; [exact Hs|exact A].
Qed.

Lemma arguments_code argv s : let n := Z.of_nat (List.length argv) mod 2 ^ 32 in
  exists d al d' lo l s1, (forall k, create_arguments E k argv s = evaluate E k (CHAIN_HEAD
      (T_DECL d (CHAIN_HEAD [T_SPEC T_INT_TS]) (T_ASSIGN al (T_IDENTIFIER "argc") (T_INTEGER n)) ::
       T_DECL d' (CHAIN_HEAD [T_SPEC T_CHAR_TS]) (T_POINTER (T_ARRAY (T_IDENTIFIER "argv") (T_INTEGER n))) :: l)) s1) /\
    fresher s s1 /\ al < lo /\ assigns lo 0 argv l.
Proof.
  intros n. destruct (argc_made (Z.of_nat (List.length argv)) s) as (d & al & s1 & H1 & G1 & Hal).
  pose proof (fresher_tick s1) as G2.
  destruct (argv_made (Z.of_nat (List.length argv)) (after_tick E s1)) as (d' & s3 & H3 & G3).
  destruct (assigns_made (fresh s1) argv 0 s3) as (l & s4 & H4 & G4 & A); [bounds|].
  exists d, al, d', (fresh s1), l, s4. split.
  - intros k. unfold create_arguments. rewrite (bind_eq _ _ _ _ _ _ _ H1), (bind_eq _ _ _ _ _ _ _ (tick_eq E s1)),
      (bind_eq _ _ _ _ _ _ _ H3), (bind_eq _ _ _ _ _ _ _ H4). reflexivity.
  - split; [|auto]. eapply fresher_trans; [exact G1|]. eapply fresher_trans; [exact G2|]. eapply fresher_trans; eassumption.
Qed.

(** ** Evaluation of a list of items *)

(** A jump to a function that is no longer active is undefined behaviour. *)
Definition finish (o : res unit) : res unit := match o with Jmp _ _ => UB | r => r end.

Lemma evaluate_finish n t s : evaluate E n t s = finish (evaluate_stmts E (K E n) t s).
Proof. unfold evaluate. destruct (evaluate_stmts E (K E n) t s); reflexivity. Qed.

Lemma finish_fuel o : finish o = Fuel -> o = Fuel.
Proof. destruct o; cbn; congruence. Qed.

Lemma evaluate_of s t o : runs_body E s t o -> exists n, forall m, (n <= m)%nat -> evaluate E m t s = finish o.
Proof.
  intros H. destruct (lim_stmts E s t o H) as [n Hn]. exists n. intros m Hm. rewrite evaluate_finish, (Hn m Hm). reflexivity.
Qed.

Lemma evaluate_inv n t s r : evaluate E n t s = r -> r <> Fuel -> exists o, runs_body E s t o /\ finish o = r.
Proof.
  intros H Hr. rewrite evaluate_finish in H. exists (evaluate_stmts E (K E n) t s). split; [|exact H].
  split; [|exists n; reflexivity]. intros Hf. rewrite Hf in H. cbn in H. congruence.
Qed.

Lemma items_done l s o : runs_body E s (CHAIN_HEAD l) o <-> block E l s o.
Proof. apply block_spec. Qed.

(** ** Declarations without a list of declarators *)

Lemma each_one f d s : d <> NULL -> (forall l, d <> CHAIN_HEAD l) -> each_decl f (CHAIN_HEAD [d]) s = each_decl f d s.
Proof.
  intros Hn Hc. cbn [each_decl foldM]. unfold bind, ret.
  assert (H : each_decl f d s = f d s) by (destruct d; try reflexivity; exfalso; eapply Hc; reflexivity).
  rewrite H. destruct (f d s); reflexivity.
Qed.

Lemma decl_one k l specs d s : d <> NULL -> (forall l, d <> CHAIN_HEAD l) -> chain_has T_STATIC specs = false ->
  evaluate_1 E k (T_DECL l specs (CHAIN_HEAD [d])) s = evaluate_1 E k (T_DECL l specs d) s.
Proof.
  intros Hn Hc Hs. cbn [evaluate_1]. destruct (zfind l (statics s)) as [[? ?]|]; [reflexivity|].
  assert (Hd : is_NULL d = false) by (destruct d; auto; congruence).
  unfold eval_decl. rewrite Hd, Hs. cbn [is_NULL]. unfold bind. destruct (resolve_specs E specs s) as [t0 s1| | | | | | | |]; auto.
  cbn [get]. destruct ((if is_T_IDENTIFIER t0 || is_T_DECL_COMPOUND s1 t0 || is_T_ENUMERATOR t0 then k_ev k t0 else ret t0) s1)
    as [type s2| | | | | | | |]; auto.
  unfold handle_typedef, handle_extern_decls. destruct (chain_has T_TYPEDEF specs); [apply each_one; auto|].
  destruct (chain_has T_EXTERN specs); [apply each_one; auto|].
  rewrite each_one by auto. destruct d; try reflexivity. congruence.
Qed.

Lemma bare l specs d s r : d <> NULL -> (forall l, d <> CHAIN_HEAD l) -> chain_has T_STATIC specs = false ->
  runs E s (T_DECL l specs (CHAIN_HEAD [d])) r -> runs E s (T_DECL l specs d) r.
Proof.
  intros Hn Hc Hs H. apply lim_runs; [apply H|]. apply runs_lim in H. eapply lim_ext; [|exact H].
  intros k. symmetry. apply decl_one; auto.
Qed.

(** ** The elements of argv *)

(** A number stored in a pointer variable. *)
Lemma assign_pointer s l lhs rhs t a arr n s1 v s2 : plain s l lhs ->
  runs E s lhs (Ok (T_LIVE_VAR (D_T_PTR t) a arr n) s1) -> runs E s1 rhs (Ok (T_INTEGER v) s2) -> storage E s2 a 8 ->
  exists s3, runs E s (T_ASSIGN l lhs rhs) (Ok (T_INTEGER v) s3) /\ only_writes E s2 a 8 s3 /\
    unsigned_at (mem s3) a 8 = Z.abs v mod 2 ^ 64.
Proof.
  intros Hp H1 H2 Hs. exists (set_mem (fun m => store_bytes m a (le_bytes 8 (mpz_get_ui v))) s2).
  split; [|split; [apply only_writes_store; reflexivity|]].
  - apply lim_runs; [discriminate|]. eapply lim_assign; eauto. apply lim_const. intros _.
    unfold assign_ptr, bind, ret. rewrite (store_storage E _ _ _ 8) by (auto; reflexivity). reflexivity.
  - cbn [mem set_mem]. rewrite unsigned_store. unfold mpz_get_ui. apply Z.mod_mod. lia.
Qed.

Lemma assign_lhs_oom s l lhs rhs n : plain s l lhs -> out_of_memory E s lhs n -> out_of_memory E s (T_ASSIGN l lhs rhs) n.
Proof.
  intros Hpl (s' & H & N). exists s'. split; [|exact N]. apply lim_runs; [discriminate|]. cbn [evaluate_1]. unfold eval_assign.
  eapply lim_bind; [apply lim_const; reflexivity|]. cbn beta. unfold assign_lhs.
  assert (Hq : match zfind l (ov_asn s) with Some v => v | None => lhs end = lhs) by (destruct Hpl as [-> | ->]; reflexivity).
  rewrite Hq. apply (lim_bind_fail E _ _ _ _ _ _ (lim_ev E _ _ _ H)). reflexivity.
Qed.

Lemma integer_runs s z : runs E s (T_INTEGER z) (Ok (T_INTEGER z) s).
Proof. apply (runs_intro _ _ _ _ 1%nat); [reflexivity|discriminate]. Qed.

Lemma lit_reads s rho z : reads E s rho (Lit z).
Proof. intros y []. Qed.

Lemma rest_refl s : undisturbed s s.
Proof. repeat split. Qed.
Lemma rest_trans s1 s2 s3 : undisturbed s1 s2 -> undisturbed s2 s3 -> undisturbed s1 s3.
Proof. unfold undisturbed. intuition congruence. Qed.
Lemma same_rest_rest s s' : same_rest s s' -> undisturbed s s'.
Proof. unfold same_rest, undisturbed. tauto. Qed.
Lemma gc_rest s s' : same_but_gc s s' -> undisturbed s s'.
Proof. intros []. repeat split; auto. Qed.

Lemma skipn_next (j : nat) : forall (l : list Z) x l', skipn j l = x :: l' -> skipn (S j) l = l'.
Proof.
  induction j as [|j IH]; intros l x l' H.
  - cbn in H. subst l. reflexivity.
  - destruct l as [|y l]; [discriminate|]. exact (IH l x l' H).
Qed.

Section Loop.
Variables (s0 : state) (al a p base n : Z) (argv : list Z).
Hypothesis Hn : n = Z.of_nat (List.length argv).
Hypothesis Hn31 : n < 2 ^ 31.
Hypothesis Hargv : Forall (fun q => 0 <= q < 2 ^ 64) argv.
Hypothesis Hbase : base + 8 * n <= 2 ^ 63.
Hypothesis Da : 0 < n -> a + 4 <= base \/ base + 8 * n <= a.
Hypothesis Dp : 0 < n -> p + 8 <= base \/ base + 8 * n <= p.
Hypothesis D0 : 0 < n -> forall b, storage E s0 b 1 -> b < base \/ base + 8 * n <= b.

Record inv (j : nat) (s : state) : Prop := {
  i_stack : stack s <> [];
  i_argc : means s "argc" (T_LIVE_VAR (D_T D_T_INT) a false 0);
  i_argc_st : storage E s a 4;
  i_argc_val : value_at s D_T_INT a = n;
  i_argv : means s "argv" (T_LIVE_VAR (D_T_PTR (D_T_PTR (D_T D_T_CHAR))) p true (8 * n));
  i_argv_st : storage E s p 8;
  i_argv_val : unsigned_at (mem s) p 8 = base;
  i_base : storage E s base (8 * n);
  i_elems : forall i q, (i < j)%nat -> nth_error argv i = Some q -> unsigned_at (mem s) (base + 8 * Z.of_nat i) 8 = q;
  i_kept : untouched E s0 s;
  i_names : forall x, x <> "argc" -> x <> "argv" -> lookup s x = lookup s0 x;
  i_asn : ov_asn s = [(al, T_IDENTIFIER "argc")];
  i_rest : undisturbed s0 s
}.

Lemma inv_step j q l s : nth_error argv j = Some q -> al < l -> inv j s ->
  let t := T_ASSIGN l (T_ARRAY_ACCESS (T_IDENTIFIER "argv") (T_INTEGER (Z.of_nat j mod 2 ^ 32))) (T_INTEGER (u64 q)) in
  out_of_memory E s t 16 \/ exists v s', runs E s t (Ok v s') /\ ends_list v = false /\ inv (S j) s'.
Proof.
  intros Hj Hl [] t.
  assert (Hjl : (j < List.length argv)%nat) by (apply nth_error_Some; congruence).
  assert (Hjn : 0 <= Z.of_nat j < n) by lia.
  assert (Hq : 0 <= q < 2 ^ 64) by (rewrite Forall_forall in Hargv; apply Hargv; eapply nth_error_In; eauto).
  unfold t. unfold u64. rewrite (Z.mod_small (Z.of_nat j)), (Z.mod_small q) by lia. clear t.
  set (lhs := T_ARRAY_ACCESS (T_IDENTIFIER "argv") (T_INTEGER (Z.of_nat j))).
  assert (Hpl : plain s l lhs).
  { left. rewrite i_asn0. cbn. assert (Hne : al <> l) by lia. apply Z.eqb_neq in Hne. rewrite Z.eqb_sym in Hne. rewrite ?Hne, ?(Z.eqb_sym al), ?Hne. reflexivity. }
  destruct (element E s "argv" (fun _ => 0) (Lit (Z.of_nat j)) (Z.of_nat j) (D_T_PTR (D_T D_T_CHAR)) p true (8 * n) n)
    as [H|(s1 & H & N)]; auto.
  - rewrite i_argv_val0. cbn [scalar_width]. lia.
  - exact I.
  - apply lit_reads.
  - lia.
  - left. apply assign_lhs_oom; auto.
  - right. rewrite i_argv_val0 in H. cbn [scalar_width syntax] in H. fold lhs in H.
    rewrite (Z.abs_eq (Z.of_nat j)) in H by lia. set (e := base + 8 * Z.of_nat j) in *.
    assert (He : storage E s1 e 8) by (apply N; eapply storage_sub; [exact i_base0|unfold e; lia|unfold e; lia]).
    destruct (assign_pointer s l lhs (T_INTEGER q) _ e false 0 s1 q s1 Hpl H (integer_runs _ _) He) as (s2 & R & W & V).
    rewrite Z.abs_eq, Z.mod_small in V by lia.
    exists (T_INTEGER q), s2. split; [exact R|]. split; [reflexivity|].
    assert (Hk1 : kept E s s1) by apply N.
    assert (Hst : forall b m, storage E s b m -> storage E s2 b m).
    { intros b m Hb. eapply only_writes_storage; [exact W|]. apply Hk1, Hb. }
    assert (Hmem : forall b, storage E s b 1 -> b < e \/ e + 8 <= b -> mem s2 b = mem s b).
    { intros b Hb Ho. rewrite (proj1 W) by exact Ho. apply Hk1, Hb. }
    assert (Hlk : forall x, lookup s2 x = lookup s x).
    { intros x. rewrite (lookup_gc _ _ x (proj1 (proj2 W))). change (lookup (set_mem (fun _ => mem s2) s1) x) with (lookup s1 x).
      apply (only_new_lookup E _ _ _ _ N). intros []. }
    assert (Hmean : forall x v, v <> NULL -> means s x v -> means s2 x v).
    { intros x v Hv Hx. apply means_lookup; auto. rewrite Hlk. apply means_lookup; auto. }
    assert (Hgc : same_but_gc (set_mem (fun _ => mem s2) s1) s2) by apply W.
    constructor; auto.
    + rewrite (sg_stack _ _ Hgc). exact (only_new_nonempty E _ _ _ N).
    + apply Hmean; [discriminate|auto].
    + rewrite <- i_argc_val0. apply value_at_same. intros x Hx. cbn in Hx. apply Hmem; [eapply storage_one; [exact i_argc_st0|lia]|]. unfold e. lia.
    + apply Hmean; [discriminate|auto].
    + rewrite <- i_argv_val0. apply unsigned_at_same. intros x Hx. apply Hmem; [eapply storage_one; [exact i_argv_st0|lia]|]. unfold e. lia.
    + intros i q' Hi Hq'. destruct (Nat.eq_dec i j) as [->|Hne].
      * rewrite Hj in Hq'. injection Hq' as <-. exact V.
      * rewrite <- (i_elems0 i q') by (auto; lia). apply unsigned_at_same. intros x Hx.
        assert (i < List.length argv)%nat by (apply nth_error_Some; congruence).
        apply Hmem; [eapply storage_one; [exact i_base0|lia]|]. unfold e. lia.
    + split; [intros b m Hm Hb; apply Hst, i_kept0, Hb; exact Hm|]. intros b Hb. rewrite Hmem; [apply i_kept0, Hb|apply i_kept0; [lia|exact Hb]|].
      specialize (D0 ltac:(lia) b Hb). unfold e. lia.
    + intros x Hx1 Hx2. rewrite Hlk. auto.
    + rewrite (sg_ov_asn _ _ Hgc). cbn. destruct N as (_ & _ & Hr). unfold same_rest in Hr. destruct Hr as (_ & _ & _ & -> & _). exact i_asn0.
    + eapply rest_trans; [exact i_rest0|]. eapply rest_trans; [apply same_rest_rest, N|]. exact (gc_rest _ _ Hgc).
Qed.

Lemma inv_loop lo l : al < lo -> forall argv' j s, assigns lo (Z.of_nat j) argv' l -> skipn j argv = argv' -> inv j s ->
  (exists s', block E l s (NoMemory 16 s') /\ refuses E 16 s') \/ exists s', block E l s (Ok tt s') /\ inv (List.length argv) s'.
Proof.
  intros Hlo argv' j s H. remember (Z.of_nat j) as z eqn:Hz. revert j Hz s. induction H as [i|i q ps x l Hx H IH]; intros j -> s Hj Hi.
  - right. exists s. split; [constructor|]. destruct Hi. constructor; auto. intros i q _ Hq. apply i_elems0; auto.
    assert (i < List.length argv)%nat by (apply nth_error_Some; congruence).
    assert (Hlen : List.length (skipn j argv) = 0%nat) by (rewrite Hj; reflexivity). rewrite skipn_length in Hlen. lia.
  - assert (Hq : nth_error argv j = Some q).
    { rewrite <- (firstn_skipn j argv), Hj. assert (Hlen : List.length (skipn j argv) = S (List.length ps)) by (rewrite Hj; reflexivity).
      rewrite skipn_length in Hlen. rewrite nth_error_app2; rewrite firstn_length_le by lia; [|lia]. rewrite Nat.sub_diag. reflexivity. }
    destruct (inv_step j q x s Hq ltac:(lia) Hi) as [(s' & R & N)|(v & s' & R & Hv & Hi')].
    + left. exists s'. split; [|exact N]. eapply block_stops; [exact R|]. split; reflexivity.
    + assert (Hj' : skipn (S j) argv = ps).
      { exact (skipn_next _ _ _ _ Hj). }
      destruct (IH (S j) ltac:(lia) s' Hj' Hi') as [(s2 & B & N)|(s2 & B & I2)].
      * left. exists s2. split; [|exact N]. eapply block_next; eauto.
      * right. exists s2. split; [|exact I2]. eapply block_next; eauto.
Qed.

End Loop.

(** ** The arguments *)

Lemma fresher_facts s s1 : fresher s s1 -> stack s1 = stack s /\ ov_asn s1 = ov_asn s /\ kept E s s1 /\ undisturbed s s1 /\
  (forall x, lookup s1 x = lookup s x).
Proof.
  intros [_ G]. destruct (proj1 G). split; [exact sg_stack|]. split; [exact sg_ov_asn|].
  split; [split; [intros b m Hb; apply (proj1 (proj2 G)), Hb|intros b _; rewrite sg_mem; reflexivity]|].
  split; [exact (gc_rest _ _ (proj1 G))|]. intros x. exact (lookup_gc _ _ x (proj1 G)).
Qed.

Lemma untouched_refl s : untouched E s s.
Proof. split; auto. Qed.
Lemma untouched_trans s1 s2 s3 : untouched E s1 s2 -> untouched E s2 s3 -> untouched E s1 s3.
Proof. intros [H1 H2] [H3 H4]. split; [auto|]. intros b Hb. rewrite H4; [auto|apply H1; [lia|exact Hb]]. Qed.
Lemma kept_untouched s s' : kept E s s' -> untouched E s s'.
Proof. intros [H1 H2]. split; auto. Qed.

Lemma declared_untouched s x t a s1 : declared E s x t a s1 -> untouched E s s1.
Proof.
  intros [(_ & (_ & _ & _ & Hn) & _) Hm]. split.
  - intros b m Hp Hb. apply Hn; auto.
  - intros b _. rewrite Hm. reflexivity.
Qed.

Lemma argument_list s argv d al d' lo l s1 : started E s -> argument_vector argv ->
  fresher s s1 -> al < lo -> assigns lo 0 argv l -> let n := Z.of_nat (List.length argv) in
  let all := T_DECL d (CHAIN_HEAD [T_SPEC T_INT_TS]) (T_ASSIGN al (T_IDENTIFIER "argc") (T_INTEGER n)) ::
       T_DECL d' (CHAIN_HEAD [T_SPEC T_CHAR_TS]) (T_POINTER (T_ARRAY (T_IDENTIFIER "argv") (T_INTEGER n))) :: l in
  (exists k s', block E all s1 (NoMemory k s') /\ refuses E k s' /\ (k = 16 \/ k = 8 * n)) \/
  exists s', block E all s1 (Ok tt s') /\ has_arguments E s' argv /\ untouched E s s' /\ undisturbed s s' /\
    (forall x, x <> "argc" -> x <> "argv" -> lookup s' x = lookup s x) /\ ov_asn s' = [(al, T_IDENTIFIER "argc")].
Proof.
  intros Hst [Hlen Hargv] Hf Hlo Has n all. destruct (started_facts s Hst) as (Hr & (c & c' & Hs & Hid & Hc & Hc') & Qa & Qr & Qs & Qi & Qb & Qf).
  destruct (fresher_facts s s1 Hf) as (F1 & F2 & F3 & F4 & F5). rewrite Hs in F1. rewrite Qa in F2.
  assert (Hst1 : statics s1 = []) by (rewrite <- Qs; apply F4).
  set (argc := T_DECL d (CHAIN_HEAD [T_SPEC T_INT_TS]) (T_ASSIGN al (T_IDENTIFIER "argc") (T_INTEGER n))) in *.
  set (argvd := T_DECL d' (CHAIN_HEAD [T_SPEC T_CHAR_TS]) (T_POINTER (T_ARRAY (T_IDENTIFIER "argv") (T_INTEGER n)))) in *.
  assert (Hint : names_type [T_INT_TS] (D_T D_T_INT)) by (apply SpecTypesFacts.resolve_type; reflexivity).
  assert (Hchar : names_type [T_CHAR_TS] (D_T D_T_CHAR)) by (apply SpecTypesFacts.resolve_type; reflexivity).
  assert (Hcls : forall x, x = T_INT_TS \/ x = T_CHAR_TS -> no_storage_class [x]).
  { intros x Hx. split; [|split]; intros [H|[]]; destruct Hx; congruence. }
  destruct (initialised_expr E (fun _ => 0) (Lit n) d [T_INT_TS] D_T_INT al "argc" s1 c [c']) as [(s' & R & N)|(a & sd & D & R)]; auto.
  { rewrite Hst1. reflexivity. }
  { rewrite Hid. intros []. }
  { left. rewrite F2. reflexivity. }
  { exact I. }
  { intros y []. }
  { left. exists 16, s'. split; [|auto]. eapply block_stops; [apply bare; [discriminate|discriminate|reflexivity|exact R]|]. split; reflexivity. }
  cbn [denote] in R. destruct R as (s2 & w & R & W & C & V & M).
  apply bare in R; [|discriminate|discriminate|reflexivity].
  assert (Hn31 : 0 <= n < 2 ^ 31) by (unfold n; lia).
  rewrite (clipped_small n w) in V by (auto; lia).
  assert (Hv : value_at s2 D_T_INT a = n).
  { eapply wraps_unique; [exact V|]. split; [exists 0; lia|]. cbn. lia. }
  set (sd' := set_ov_asn (fun o => (al, T_IDENTIFIER "argc") :: o) sd) in *.
  assert (Hgc : same_but_gc (set_mem (fun _ => mem s2) sd') s2) by apply W.
  pose proof (declared_untouched _ _ _ _ _ D) as U1d.
  pose proof (fun y => declared_lookup E _ _ _ _ _ _ _ y F1 D) as Hlkd.
  destruct D as [((c0 & cs0 & G1 & G2) & (G3 & G4 & G5 & G6) & G7) Dm]. rewrite F1 in G1. injection G1 as <- <-.
  set (c2 := scope_with c [("argc", T_LIVE_VAR (D_T D_T_INT) a false 0)] a) in *.
  assert (Hs2 : stack s2 = [c2; c']) by (rewrite (sg_stack _ _ Hgc); exact G2).
  assert (S2 : forall b m, storage E sd b m -> storage E s2 b m).
  { intros b m Hb. eapply only_writes_storage; [exact W|]. exact Hb. }
  assert (U12 : untouched E s1 s2).
  { split; [intros b m Hm Hb; apply S2, U1d; auto|]. intros b Hb. destruct (G6 b 1 ltac:(lia) Hb) as [_ Ho].
    rewrite (proj1 W) by (cbn [width]; lia). change (mem sd' b) with (mem sd b). rewrite Dm. reflexivity. }
  assert (U02 : untouched E s s2) by (eapply untouched_trans; [apply kept_untouched; exact F3|exact U12]).
  assert (Hidm : c_idmap c2 = [("argc", T_LIVE_VAR (D_T D_T_INT) a false 0)]).
  { unfold c2. cbn. rewrite Hid. reflexivity. }
  assert (Hlk2 : forall x, x <> "argc" -> lookup s2 x = lookup s x).
  { intros x Hx. rewrite <- F5, (lookup_gc _ _ x Hgc). exact (Hlkd x Hx). }
  assert (R02 : undisturbed s s2).
  { eapply rest_trans; [exact F4|]. eapply rest_trans; [apply same_rest_rest; exact G7|]. exact (gc_rest _ _ Hgc). }
  assert (Hasn2 : ov_asn s2 = [(al, T_IDENTIFIER "argc")]).
  { rewrite (sg_ov_asn _ _ Hgc). cbn. destruct G7 as (_ & _ & _ & -> & _). rewrite F2. reflexivity. }
  assert (Hsz : (8 * (Z.abs n mod 2 ^ 64)) mod 2 ^ 64 = 8 * n) by (rewrite Z.abs_eq by lia; rewrite (Z.mod_small n) by lia; apply Z.mod_small; lia).
  destruct (array_declaration E d' [T_CHAR_TS] (D_T D_T_CHAR) 1 "argv" (fun _ => 0) (Lit n) n s2 c2 [c']) as [H|[H|H]]; auto.
  { replace (statics s2) with (statics s); [rewrite Qs; reflexivity|]. symmetry. apply R02. }
  { exact I. }
  { exact I. }
  { apply not_in_declares. rewrite Hidm. intros [Hq|[]]. discriminate. }
  { apply lit_reads. }
  - destruct H as (s' & H & N). left. exists 16, s'. split; [|auto]. eapply block_next; [exact R|reflexivity|].
    eapply block_stops; [apply bare; [discriminate|discriminate|reflexivity|exact H]|]. split; reflexivity.
  - destruct H as (s' & H & N). left. exists (8 * n), s'. cbn [pointer_to scalar_width] in N, H. rewrite Hsz in N, H. split; [|auto]. eapply block_next; [exact R|reflexivity|].
    eapply block_stops; [apply bare; [discriminate|discriminate|reflexivity|exact H]|]. split; reflexivity.
  - destruct H as (v & s3 & H & N & A). cbn [pointer_to scalar_width] in A. rewrite Hsz in A.
    destruct A as (p & base & -> & A1 & A2 & A3 & A4).
    assert (I0 : inv s al a p base n argv 0 s3).
    { assert (Sa : storage E s2 a 4) by (apply S2; eapply storage_sub; [exact G3|lia|lia]).
      assert (Ha : means s2 "argc" (T_LIVE_VAR (D_T D_T_INT) a false 0)) by exact M.
      constructor.
      - exact (only_new_nonempty E _ _ _ N).
      - apply means_lookup; [discriminate|]. rewrite (only_new_lookup E _ _ _ _ N) by (intros [Hq|[]]; discriminate). apply means_lookup; [discriminate|exact M].
      - apply N, Sa.
      - rewrite <- Hv. apply value_at_same. intros x Hx. cbn in Hx. apply N. eapply storage_one; [exact Sa|lia].
      - destruct N as ((c0 & cs0 & al0 & Q1 & Q2 & _) & _). rewrite Hs2 in Q1. injection Q1 as <- <-.
        exists [], (scope_plus c2 [("argv", T_LIVE_VAR (D_T_PTR (D_T_PTR (D_T D_T_CHAR))) p true (8 * n))] al0). unfold visible. rewrite Q2.
        eexists. split; [reflexivity|]. split; [intros ? []|]. split; [discriminate|].
        apply NameFacts.entry_resolve; [discriminate|]. apply resolve_id_app_r. rewrite Hidm. intros [Hq|[]]. discriminate.
      - eapply storage_sub; [exact (proj1 A3)|lia|lia].
      - exact A1.
      - exact (proj1 A2).
      - intros i q Hi. lia.
      - eapply untouched_trans; [exact U02|]. apply kept_untouched, N.
      - intros x Hx1 Hx2. rewrite (only_new_lookup E _ _ _ _ N) by (intros [Hq|[]]; cbn in Hq; congruence). auto.
      - destruct N as (_ & _ & (_ & _ & _ & -> & _)). exact Hasn2.
      - eapply rest_trans; [exact R02|]. apply same_rest_rest, N. }
    destruct (inv_loop s al a p base n argv) with (lo := lo) (l := l) (argv' := argv) (j := O) (s := s3) as [H0|H0]; auto.
    { apply A2. }
    { intros Hp. destruct A2 as (_ & _ & _ & A2). destruct (A2 a 4 ltac:(lia)) as [_ Ho]; [|lia]. apply S2. eapply storage_sub; [exact G3|lia|lia]. }
    { intros Hp. destruct (A4 ltac:(lia)); lia. }
    { intros Hp b Hb. destruct A2 as (_ & _ & _ & A2). destruct (A2 b 1 ltac:(lia)) as [_ Ho]; [|lia]. apply U02; [lia|exact Hb]. }
    + destruct H0 as (s' & B & Nm). left. exists 16, s'. split; [|auto]. eapply block_next; [exact R|reflexivity|].
      eapply block_next; [apply bare; [discriminate|discriminate|reflexivity|exact H]|reflexivity|exact B].
    + destruct H0 as (s' & B & []). right. exists s'. split; [|split; [|auto]].
      * eapply block_next; [exact R|reflexivity|].
        eapply block_next; [apply bare; [discriminate|discriminate|reflexivity|exact H]|reflexivity|exact B].
      * split; [exists a; auto|]. exists p, base. repeat (split; [solve [auto|apply A2]|]).
        intros i q Hi. apply i_elems0; auto. apply nth_error_Some. congruence.
Qed.

(** ** Outcomes of making the arguments *)

Lemma arguments_block s argv : exists d al d' lo l s1, let n := Z.of_nat (List.length argv) mod 2 ^ 32 in
  let all := T_DECL d (CHAIN_HEAD [T_SPEC T_INT_TS]) (T_ASSIGN al (T_IDENTIFIER "argc") (T_INTEGER n)) ::
       T_DECL d' (CHAIN_HEAD [T_SPEC T_CHAR_TS]) (T_POINTER (T_ARRAY (T_IDENTIFIER "argv") (T_INTEGER n))) :: l in
  fresher s s1 /\ al < lo /\ assigns lo 0 argv l /\
  (forall r, arguments E s argv r -> exists o, block E all s1 o /\ finish o = r) /\
  (forall o, block E all s1 o -> exists n, forall m, (n <= m)%nat -> create_arguments E m argv s = finish o).
Proof.
  destruct (arguments_code argv s) as (d & al & d' & lo & l & s1 & H & F & Hal & A). exists d, al, d', lo, l, s1. cbv zeta in H |- *.
  split; [exact F|]. split; [exact Hal|]. split; [exact A|]. split.
  - intros r [Hr [n Hn]]. rewrite H in Hn. destruct (evaluate_inv _ _ _ _ Hn Hr) as (o & B & Hf). exists o. split; [|exact Hf].
    apply items_done, B.
  - intros o B. apply items_done, evaluate_of in B. destruct B as [n Hn]. exists n. intros m Hm. rewrite H. apply Hn, Hm.
Qed.

Lemma block_not_fuel l s o : block E l s o -> o <> Fuel.
Proof. intros H. apply items_done in H. apply H. Qed.
Lemma finish_not_fuel l s o : block E l s o -> finish o <> Fuel.
Proof. intros H Hf. apply finish_fuel in Hf. apply block_not_fuel in H. contradiction. Qed.

Lemma arguments_lim s argv r : arguments E s argv r -> exists n, forall m, (n <= m)%nat -> create_arguments E m argv s = r.
Proof.
  intros H. destruct (arguments_block s argv) as (d & al & d' & lo & l & s1 & _ & _ & _ & H1 & H2).
  destruct (H1 r H) as (o & B & <-). apply H2, B.
Qed.

Lemma arguments_fun s argv r r' : arguments E s argv r -> arguments E s argv r' -> r = r'.
Proof.
  intros H H'. destruct (arguments_lim _ _ _ H) as [n Hn]. destruct (arguments_lim _ _ _ H') as [m Hm].
  rewrite <- (Hn (Nat.max n m)) by lia. apply Hm. lia.
Qed.

Lemma psteps_new_node : psteps E (new_node E).
Proof. unfold new_node. apply psteps_bind; [apply psteps_tick|]. intros _. apply psteps_fresh_id. Qed.
Lemma psteps_leaf A (x : A) : psteps E (bind (tick E) (fun _ => ret x)).
Proof. apply psteps_bind; [apply psteps_tick|]. intros _. apply psteps_ret. Qed.

Ltac ps := repeat match goal with
  | |- psteps _ (new_node _) => apply psteps_new_node
  | |- psteps _ (tick _) => apply psteps_tick
  | |- psteps _ (ret _) => apply psteps_ret
  | |- psteps _ (bind _ _) => apply psteps_bind; [|intros ?]
  end.

Lemma psteps_evaluate n t : psteps E (evaluate E n t).
Proof.
  intros s. rewrite evaluate_finish. pose proof (stmts_steps E n t s) as H. destruct (evaluate_stmts E (K E n) t s); cbn in *; auto; intros; congruence.
Qed.

Lemma psteps_create n argv : psteps E (create_arguments E n argv).
Proof.
  unfold create_arguments, argc_decl, argv_decl, get_identifier, get_integer, get_addr, tree_chain_head.
  apply psteps_bind; [ps|]. intros c. apply psteps_bind; [ps|]. intros _. apply psteps_bind; [ps|]. intros v.
  apply psteps_bind; [|intros l; apply psteps_evaluate].
  generalize 0. induction argv as [|p argv IH]; intros i; cbn [argv_assigns]; [apply psteps_ret|].
  unfold get_identifier, get_integer, get_addr. ps. apply IH.
Qed.

Lemma good_evaluate n t : ScopeFacts.good (evaluate E n t).
Proof.
  destruct (stmts_good E n t) as [H1 H2]. split; intros s; rewrite evaluate_finish; [specialize (H1 s)|specialize (H2 s)];
    destruct (evaluate_stmts E (K E n) t s); cbn in *; auto.
Qed.

Ltac gs := repeat match goal with
  | |- ScopeFacts.good (new_node _) => unfold new_node
  | |- ScopeFacts.good fresh_id => apply good_fresh_id
  | |- ScopeFacts.good (tick _) => apply good_tick
  | |- ScopeFacts.good (ret _) => apply good_ret
  | |- ScopeFacts.good (bind _ _) => apply good_bind; [|intros ?]
  end.

Lemma good_create n argv : ScopeFacts.good (create_arguments E n argv).
Proof.
  unfold create_arguments, argc_decl, argv_decl, get_identifier, get_integer, get_addr, tree_chain_head.
  apply good_bind; [gs|]. intros c. apply good_bind; [gs|]. intros _. apply good_bind; [gs|]. intros v.
  apply good_bind; [|intros l; apply good_evaluate].
  generalize 0. induction argv as [|p argv IH]; intros i; cbn [argv_assigns]; [apply good_ret|].
  unfold get_identifier, get_integer, get_addr. gs. apply IH.
Qed.

Lemma arguments_restored s argv s' : reachable E s -> arguments E s argv (Ok tt s') -> breaks s' = breaks s -> restored (stack s) (stack s').
Proof.
  intros Hr [_ [n Hn]] Hb. destruct (good_create n argv) as [_ H]. specialize (H s (reachable_ids_lt _ _ Hr)). rewrite Hn in H. auto.
Qed.

Lemma arguments_steps s argv r s' : arguments E s argv r -> final r = Some s' -> steps E s s'.
Proof. intros [_ [n <-]] H. eapply ps_use; [|exact H]. apply psteps_create. Qed.

Lemma arguments_made s argv : started E s -> argument_vector argv ->
  (exists k s', arguments E s argv (NoMemory k s') /\ refuses E k s' /\ (k = 16 \/ k = 8 * Z.of_nat (List.length argv))) \/
  exists s', arguments E s argv (Ok tt s') /\ reachable E s' /\ has_arguments E s' argv /\ untouched E s s' /\ undisturbed s s' /\
    (forall x, x <> "argc" -> x <> "argv" -> lookup s' x = lookup s x).
Proof.
  intros Hs Ha. destruct (arguments_block s argv) as (d & al & d' & lo & l & s1 & F & Hal & As & H1 & H2).
  rewrite (Z.mod_small (Z.of_nat _)) in H1, H2 by (pose proof (proj1 Ha); lia).
  assert (Hof : forall o, o <> Fuel -> finish o = o -> forall n, (forall m, (n <= m)%nat -> create_arguments E m argv s = finish o) -> arguments E s argv o).
  { intros o Ho Hf n Hn. split; [exact Ho|]. exists n. rewrite <- Hf. apply Hn. lia. }
  destruct (argument_list s argv d al d' lo l s1 Hs Ha F Hal As) as [(k & s' & B & N & Hk)|(s' & B & Q1 & Q2 & Q3 & Q4 & Q5)].
  - left. exists k, s'. split; [|auto]. destruct (H2 _ B) as [n Hn]. apply (Hof _) with (n := n); [discriminate|reflexivity|exact Hn].
  - right. exists s'. assert (A : arguments E s argv (Ok tt s')).
    { destruct (H2 _ B) as [n Hn]. apply (Hof _) with (n := n); [discriminate|reflexivity|exact Hn]. }
    split; [exact A|]. split; [|auto]. destruct (started_facts s Hs) as [Hr _].
    eapply reachable_steps; [exact Hr|]. eapply arguments_steps; [exact A|reflexivity].
Qed.

(** ** What the script contains *)

Lemma main_args_iff i n : SpecCScript.declaration i \/ statement i -> ((exists ps, main_args i = Some ps /\ List.length (chain_elems ps) = n) <-> declares_main i n).
Proof.
  intros Hd. split.
  - intros (ps & H & <-). destruct Hd as [(l & specs & ds & -> & Hds)|Hd].
    + cbn in H. destruct Hds as [->|(d & ds' & ->)]; [discriminate|]. cbn in H. destruct d; try discriminate. destruct d1; try discriminate.
      match type of H with context [String.eqb ?x "main"] => destruct (String.eqb x "main") eqn:E1; [|discriminate]; injection H as <-; apply String.eqb_eq in E1; subst x end.
      constructor.
    + destruct i; try discriminate. exfalso. eapply Hd. reflexivity.
  - intros []. exists ps. split; reflexivity.
Qed.

Lemma declares_main_declaration i n : declares_main i n -> SpecCScript.declaration i.
Proof. intros []. eexists _, _, _. split; [reflexivity|]. right. eexists _, _. reflexivity. Qed.

Lemma scan_spec l : top_level l -> forall k, main_parameters l k -> exists hm nd, scan l = (Z.of_nat k, hm, nd) /\ (hm = true <-> has_main l) /\
  (nd = true <-> exists i, In i l /\ statement i).
Proof.
  intros Ht k Hk. induction Hk as [|i l n k Hd Hk IH|i l k Hd Hk IH].
  - exists false, false. split; [reflexivity|]. split; (split; [discriminate|]); [intros (i & n & [] & _)|intros (i & [] & _)].
  - inversion Ht as [|? ? Hi Ht']; subst. destruct (IH Ht') as (hm & nd & Hs & H1 & H2). cbn [scan]. rewrite Hs.
    destruct (proj2 (main_args_iff i n Hi) Hd) as (ps & -> & <-). exists true, nd. split; [rewrite Nat2Z.inj_add; reflexivity|]. split.
    + split; [intros _|reflexivity]. exists i, (List.length (chain_elems ps)). split; [left; reflexivity|exact Hd].
    + rewrite H2. split.
      * intros (j & Hj & Hq). exists j. split; [right; exact Hj|exact Hq].
      * intros (j & [<-|Hj] & Hq); [|exists j; auto]. exfalso. destruct (declares_main_declaration _ _ Hd) as (? & ? & ? & -> & _). eapply Hq. reflexivity.
  - inversion Ht as [|? ? Hi Ht']; subst. destruct (IH Ht') as (hm & nd & Hs & H1 & H2). cbn [scan]. rewrite Hs.
    assert (Hm : main_args i = None).
    { destruct (main_args i) as [ps|] eqn:Em; [|reflexivity]. exfalso. apply (Hd (List.length (chain_elems ps))). apply main_args_iff; [exact Hi|]. exists ps. auto. }
    rewrite Hm. eexists hm, _. split; [reflexivity|]. split.
    + rewrite H1. split.
      * intros (j & n & Hj & Hq). exists j, n. split; [right; exact Hj|exact Hq].
      * intros (j & n & [<-|Hj] & Hq); [|exists j, n; auto]. exfalso. eapply Hd, Hq.
    + rewrite orb_true_iff, H2. split.
      * intros [(j & Hj & Hq)|Hb]; [exists j; split; [right; exact Hj|exact Hq]|]. exists i. split; [left; reflexivity|].
        intros ? ? ? ->. discriminate.
      * intros (j & [<-|Hj] & Hq); [|left; exists j; auto]. right. destruct i; try reflexivity. exfalso. eapply Hq. reflexivity.
Qed.

Lemma main_parameters_total l : top_level l -> exists k, main_parameters l k.
Proof.
  intros Ht. induction Ht as [|i l Hi Ht [k IH]]; [exists O; constructor|].
  destruct (main_args i) as [ps|] eqn:Em.
  - eexists. apply mp_main; [|exact IH]. apply main_args_iff; [exact Hi|]. exists ps. split; [exact Em|reflexivity].
  - exists k. apply mp_other; [|exact IH]. intros n Hn. apply main_args_iff in Hn; [|exact Hi]. destruct Hn as (ps & Hq & _). congruence.
Qed.

Lemma main_call_made k s : exists s', main_call E (Z.of_nat k) s = Ok (call_main k) s' /\ only_gc E s s'.
Proof.
  assert (G : forall s, only_gc E s (after_tick E s)) by (intros; apply gc_only_tick).
  destruct k as [|[|k]]; cbn [call_main].
  - eexists. split; [reflexivity|]. eapply gc_only_trans; apply G.
  - eexists. split; [reflexivity|]. repeat (eapply gc_only_trans; [|apply G]). apply gc_only_refl.
  - unfold main_call. replace (0 <? Z.of_nat (S (S k))) with true by (symmetry; apply Z.ltb_lt; lia).
    replace (1 <? Z.of_nat (S (S k))) with true by (symmetry; apply Z.ltb_lt; lia).
    eexists. split; [reflexivity|]. repeat (eapply gc_only_trans; [|apply G]). apply gc_only_refl.
Qed.

(** ** The script *)

(** After the items have been executed. *)
Definition wind (o : res unit) : res Z :=
  match finish o with
  | Ok _ s => Ok 0 s
  | Jmp i s => Jmp i s | Die s => Die s | Abort s => Abort s | Exit n s => Exit n s
  | UB => UB | Fuel => Fuel | NoMemory n s => NoMemory n s | Unmodelled s => Unmodelled s
  end.

Lemma ended_wind o r : o <> Fuel -> (ended o r <-> wind o = r).
Proof.
  intros Ho. split.
  - intros []; reflexivity.
  - destruct o as [[] s| | | | | | | |]; cbn; intros <-; try constructor. congruence.
Qed.

Lemma wind_fuel o : wind o = Fuel -> o = Fuel.
Proof. destruct o; cbn; congruence. Qed.

Lemma bind_fuel A B (m : M A) (f : A -> M B) s : m s = Fuel -> bind m f s = Fuel.
Proof. unfold bind. intros ->. reflexivity. Qed.

Lemma bind_unit (m : M unit) s : bind m (fun _ => ret 0) s = match m s with
  | Ok _ s => Ok 0 s
  | Jmp i s => Jmp i s | Die s => Die s | Abort s => Abort s | Exit n s => Exit n s
  | UB => UB | Fuel => Fuel | NoMemory n s => NoMemory n s | Unmodelled s => Unmodelled s
  end.
Proof. unfold bind, ret. destruct (m s); reflexivity. Qed.

(** The items with what may follow. *)
Lemma script_items s l argv s1 k hm nd calls s2 : scan l = (k, hm, nd) -> hm && nd = false -> arguments E s argv (Ok tt s1) ->
  (if hm then c <- main_call E k ;; ret [c] else ret []) s1 = Ok calls s2 ->
  executes E s l argv (l ++ calls) s2.
Proof.
  intros Hs Hb Ha Hc r.
  assert (Hn : forall n, evaluate_cscript E n (Items l) false argv s =
    match create_arguments E n argv s with Ok _ s1 => bind (if hm then c <- main_call E k ;; ret [c] else ret [])
         (fun calls => evaluate E n (CHAIN_HEAD (l ++ calls)) ;; ret 0) s1
    | Jmp i s => Jmp i s | Die s => Die s | Abort s => Abort s | Exit n s => Exit n s
    | UB => UB | Fuel => Fuel | NoMemory n s => NoMemory n s | Unmodelled s => Unmodelled s end).
  { intros n. unfold evaluate_cscript, evaluate_items. rewrite Hs, Hb. unfold bind.
    destruct (create_arguments E n argv s) as [u s'| | | | | | | |]; auto.
    match goal with |- context [match ?m s' with _ => _ end] => destruct (m s') as [v s''| | | | | | | |] end; auto. }
  destruct (arguments_lim _ _ _ Ha) as [na Hna]. split.
  - intros [Hr [n H]]. rewrite Hn in H.
    destruct (create_arguments E n argv s) as [u s'| | | | | | | |] eqn:Hca.
    1: { assert (Hu : Ok u s' = Ok tt s1) by (eapply arguments_fun; [|exact Ha]; split; [discriminate|exists n; exact Hca]).
      injection Hu as -> ->. rewrite (bind_eq _ _ _ _ _ _ _ Hc), bind_unit, evaluate_finish in H.
      exists (evaluate_stmts E (K E n) (CHAIN_HEAD (l ++ calls)) s2).
      assert (Ho : evaluate_stmts E (K E n) (CHAIN_HEAD (l ++ calls)) s2 <> Fuel).
      { intros Ho. rewrite Ho in H. cbn in H. congruence. }
      split; [|apply ended_wind; [exact Ho|exact H]]. apply items_done. split; [exact Ho|exists n; reflexivity]. }
    6: congruence.
    all: exfalso; match type of Hca with _ = ?x => assert (Hu : x = Ok tt s1); [|discriminate] end;
      eapply arguments_fun; [|exact Ha]; (split; [discriminate|exists n; exact Hca]).
  - intros (o & B & Hend). pose proof (block_not_fuel _ _ _ B) as Ho. apply ended_wind in Hend; [|exact Ho].
    split; [intros ->; apply wind_fuel in Hend; contradiction|].
    apply items_done, evaluate_of in B. destruct B as [nb Hnb]. exists (Nat.max na nb). rewrite Hn, Hna by lia.
    rewrite (bind_eq _ _ _ _ _ _ _ Hc), bind_unit, Hnb by lia. exact Hend.
Qed.

Lemma no_statements l : Forall SpecCScript.declaration l -> top_level l /\ ~ exists i, In i l /\ statement i.
Proof.
  intros H. split; [eapply Forall_impl; [|exact H]; auto|]. intros (i & Hi & Hs). rewrite Forall_forall in H.
  destruct (H i Hi) as (? & ? & ? & -> & _). eapply Hs. reflexivity.
Qed.

Lemma script_main s l argv k s1 : Forall SpecCScript.declaration l -> has_main l -> main_parameters l k -> arguments E s argv (Ok tt s1) ->
  exists s2, only_gc E s1 s2 /\ executes E s l argv (l ++ [call_main k]) s2.
Proof.
  intros Hd Hm Hk Ha. destruct (no_statements _ Hd) as [Ht Hns]. destruct (scan_spec _ Ht _ Hk) as (hm & nd & Hs & H1 & H2).
  assert (hm = true) by (apply H1, Hm). assert (nd = false) by (destruct nd; [exfalso; apply Hns, H2; reflexivity|reflexivity]). subst.
  destruct (main_call_made k s1) as (s2 & Hc & G). exists s2. split; [exact G|]. eapply script_items; [exact Hs|reflexivity|exact Ha|].
  cbv beta iota. rewrite (bind_eq _ _ _ _ _ _ _ Hc). reflexivity.
Qed.

Lemma script_no_main s l argv s1 : top_level l -> ~ has_main l -> arguments E s argv (Ok tt s1) ->
  executes E s l argv l s1.
Proof.
  intros Ht Hm Ha. destruct (main_parameters_total l Ht) as [k Hk]. destruct (scan_spec _ Ht _ Hk) as (hm & nd & Hs & H1 & H2).
  assert (hm = false) by (destruct hm; [exfalso; apply Hm, H1; reflexivity|reflexivity]). subst hm.
  replace (executes E s l argv l s1) with (executes E s l argv (l ++ []) s1) by (rewrite app_nil_r; reflexivity).
  eapply script_items; [exact Hs|reflexivity|exact Ha|reflexivity].
Qed.

Lemma script_mixed s l argv : top_level l -> has_main l -> (exists i, In i l /\ statement i) ->
  forall r, script E s l argv r <-> r = Exit 1 s.
Proof.
  intros Ht Hm Hst. destruct (main_parameters_total l Ht) as [k Hk]. destruct (scan_spec _ Ht _ Hk) as (hm & nd & Hs & H1 & H2).
  assert (hm = true) by (apply H1, Hm). assert (nd = true) by (apply H2, Hst). subst.
  assert (Hn : forall n, evaluate_cscript E n (Items l) false argv s = Exit 1 s).
  { intros n. unfold evaluate_cscript, evaluate_items. rewrite Hs. reflexivity. }
  intros r. split.
  - intros [_ [n H]]. rewrite Hn in H. auto.
  - intros ->. split; [discriminate|]. exists O. apply Hn.
Qed.

Lemma script_no_arguments s l argv m s1 : top_level l -> ~ (has_main l /\ exists i, In i l /\ statement i) -> arguments E s argv (NoMemory m s1) ->
  forall r, script E s l argv r <-> r = NoMemory m s1.
Proof.
  intros Ht Hm Ha. destruct (main_parameters_total l Ht) as [k Hk]. destruct (scan_spec _ Ht _ Hk) as (hm & nd & Hs & H1 & H2).
  assert (Hb : hm && nd = false).
  { destruct hm; [|reflexivity]. destruct nd; [|reflexivity]. exfalso. apply Hm. split; [apply H1|apply H2]; reflexivity. }
  assert (Hn : forall n, create_arguments E n argv s = NoMemory m s1 -> evaluate_cscript E n (Items l) false argv s = NoMemory m s1).
  { intros n Hc. unfold evaluate_cscript, evaluate_items. rewrite Hs, Hb. rewrite bind_unit. unfold bind. rewrite Hc. reflexivity. }
  assert (Hf : forall n, create_arguments E n argv s = Fuel -> evaluate_cscript E n (Items l) false argv s = Fuel).
  { intros n Hc. unfold evaluate_cscript, evaluate_items. rewrite Hs, Hb. rewrite bind_unit. unfold bind. rewrite Hc. reflexivity. }
  destruct (arguments_lim _ _ _ Ha) as [na Hna]. intros r. split.
  - intros [Hr [n H]].
    assert (Hca : create_arguments E n argv s <> Fuel) by (intros Hca; rewrite (Hf n Hca) in H; congruence).
    rewrite Hn in H; [auto|]. eapply arguments_fun; [|exact Ha]. split; [exact Hca|exists n; reflexivity].
  - intros ->. split; [discriminate|]. exists na. apply Hn, Hna. lia.
Qed.

(** ** How it ends *)

Lemma block_fun l s r r' : block E l s r -> block E l s r' -> r = r'.
Proof. rewrite <- !items_done. apply runs_body_fun. Qed.

Lemma executes_only s l argv ts s2 o r : executes E s l argv ts s2 -> block E ts s2 o -> ended o r -> forall r', script E s l argv r' <-> r' = r.
Proof.
  intros H B Hr r'. rewrite (H r'). pose proof (block_not_fuel _ _ _ B) as Ho. split.
  - intros (o' & B' & Hr'). rewrite (block_fun _ _ _ _ B' B) in Hr'. apply ended_wind in Hr; [|exact Ho]. apply ended_wind in Hr'; [|exact Ho]. congruence.
  - intros ->. exists o. auto.
Qed.

Lemma only_status s l argv r n : (forall r', script E s l argv r' <-> r' = r) -> status r = Some n ->
  forall n', script_status E s l argv n' <-> n' = n.
Proof.
  intros H Hn n'. split.
  - intros (r' & H1 & H2). apply H in H1. congruence.
  - intros ->. exists r. split; [apply H; reflexivity|exact Hn].
Qed.

Lemma main_ends s l argv ts call s2 s3 v s4 : executes E s l argv (ts ++ [call]) s2 -> items E ts s2 s3 ->
  runs E s3 call (Ok v s4) -> ends_list v = false -> forall r, script E s l argv r <-> r = Ok 0 s4.
Proof.
  intros H Hi Hc Hv. eapply executes_only; [exact H| |constructor]. eapply items_block; [exact Hi|].
  eapply block_next; [exact Hc|exact Hv|constructor].
Qed.

Lemma item_stops s l argv pre i post s2 s3 o r : executes E s l argv (pre ++ i :: post) s2 -> items E pre s2 s3 ->
  runs E s3 i o -> stops o -> ended (match o with Ok _ s => Ok tt s
    | Jmp i s => Jmp i s | Die s => Die s | Abort s => Abort s | Exit n s => Exit n s
    | UB => UB | Fuel => Fuel | NoMemory n s => NoMemory n s | Unmodelled s => Unmodelled s end) r ->
  forall r', script E s l argv r' <-> r' = r.
Proof.
  intros H Hi Ho Hs Hr. eapply executes_only; [exact H| |exact Hr]. eapply items_block; [exact Hi|].
  eapply block_stops; [exact Ho|]. pose proof (proj1 Ho). destruct o; cbn; auto; try contradiction; try congruence.
Qed.

Lemma top_return s l argv pre lbl e post s1 s2 v s3 z s4 : started E s -> arguments E s argv (Ok tt s1) -> executes E s l argv (pre ++ T_RETURN lbl e :: post) s1 ->
  items E pre s1 s2 -> zfind lbl (ov_ret s2) = None -> runs E s2 e (Ok v s3) -> breaks s3 = breaks s ->
  int_value E (set_ov_ret (fun o => (lbl, v) :: o) s3) v (Ok z s4) -> forall r, script E s l argv r <-> r = Exit (smod 32 z) s4.
Proof.
  intros Hst Ha H Hi Hn He Hb Hz. destruct (started_facts s Hst) as (Hr & (c & c' & Hs & _ & F1 & F2) & _).
  pose proof (arguments_steps _ _ _ _ Ha eq_refl) as S1. pose proof (reachable_steps _ _ _ Hr S1) as Hr1.
  pose proof (items_steps E _ _ _ Hi) as S2. pose proof (breaks_mono _ _ _ S1). pose proof (breaks_mono _ _ _ S2).
  pose proof (breaks_mono _ _ _ (runs_steps _ _ _ _ _ He eq_refl)).
  destruct (items_restored E _ _ _ Hi Hr1 ltac:(lia)) as [R2 Hr2].
  assert (Hact : activation (stack s3) = None).
  { rewrite (activation_runs E s2 e v s3 Hr2 He) by lia. rewrite (restored_activation _ _ R2).
    rewrite (restored_activation _ _ (arguments_restored _ _ _ Hr Ha ltac:(lia))), Hs. cbn. rewrite F1, F2. reflexivity. }
  eapply executes_only; [exact H| |constructor]. eapply items_block; [exact Hi|].
  eapply block_return.
  - apply return_spec. left. exists v, s3. split; [|reflexivity]. unfold returned. rewrite Hn. exact He.
  - unfold return_to. cbn [stack set_ov_ret]. rewrite Hact. left. exists z, s4. split; [|reflexivity].
    unfold returned. cbn. rewrite Z.eqb_refl. exact Hz.
Qed.

Lemma top_return_expr s l argv pre lbl e post s1 s2 rho v : started E s -> arguments E s argv (Ok tt s1) ->
  executes E s l argv (pre ++ T_RETURN lbl (syntax e) :: post) s1 -> items E pre s1 s2 -> zfind lbl (ov_ret s2) = None -> breaks s2 = breaks s ->
  computed e -> reads E s2 rho e -> denote rho e = Some v -> exists s3, forall r, script E s l argv r <-> r = Exit (smod 32 v) s3.
Proof.
  intros Hst Ha H Hi Hn Hb Hc Hr Hv. destruct (computed_value E rho e s2 Hc Hr) as (s3 & G & R). rewrite Hv in R.
  eexists. eapply top_return; [exact Hst|exact Ha|exact H|exact Hi|exact Hn|exact R| |].
  - rewrite <- Hb. apply G.
  - left. eexists _, _. split; [apply integer_runs|reflexivity].
Qed.

(** ** Use of the arguments *)

Lemma arguments_used s argv : stack s <> [] -> argument_vector argv -> has_arguments E s argv ->
  (exists a, runs E s (T_IDENTIFIER "argc") (Ok (T_LIVE_VAR (D_T D_T_INT) a false 0) s) /\ storage E s a 4 /\
    value_at s D_T_INT a = Z.of_nat (List.length argv)) /\
  forall rho e i q, reads E s rho e -> denote rho e = Some (Z.of_nat i) -> nth_error argv i = Some q ->
    let t := T_ARRAY_ACCESS (T_IDENTIFIER "argv") (syntax e) in
    out_of_memory E s t 16 \/ exists a s', runs E s t (Ok (T_LIVE_VAR (D_T_PTR (D_T D_T_CHAR)) a false 0) s') /\ only_new E s [] s' /\
      storage E s' a 8 /\ unsigned_at (mem s') a 8 = q.
Proof.
  intros Hs [Hlen _] [(a & Ha1 & Ha2 & Ha3) (p & base & Hp1 & Hp2 & Hp3 & Hp4 & Hp5 & Hp6 & Hp7)]. split.
  - exists a. split; [|auto]. apply innermost. auto.
  - intros rho e i q Hr He Hq t. assert (Hi : (i < List.length argv)%nat) by (apply nth_error_Some; congruence).
    destruct (element E s "argv" rho e (Z.of_nat i) (D_T_PTR (D_T D_T_CHAR)) p true (8 * Z.of_nat (List.length argv)) (Z.of_nat (List.length argv)))
      as [H|(s1 & H & N)]; auto.
    + rewrite Hp3. cbn [scalar_width]. lia.
    + exact I.
    + lia.
    + right. rewrite Hp3 in H. cbn [scalar_width] in H. rewrite (Z.abs_eq (Z.of_nat i)) in H by lia.
      assert (Hst : storage E s (base + 8 * Z.of_nat i) 8) by (eapply storage_sub; [exact Hp4|lia|lia]).
      exists (base + 8 * Z.of_nat i), s1. split; [exact H|]. split; [exact N|]. split; [apply N, Hst|].
      rewrite <- (Hp7 i q Hq). apply unsigned_at_same. intros x Hx. apply N. eapply storage_one; [exact Hst|lia].
Qed.

(** ** main(void) *)

Lemma items_block_inv pre post s s1 r : items E pre s s1 -> block E (pre ++ post) s r -> block E post s1 r.
Proof.
  induction 1 as [|i l s v s1 s2 Hi Hv Hl IH]; cbn [app]; [auto|]. intros B. apply IH.
  inversion B as [|? ? ? v' s1' ? Hi' Hv' B'|? ? ? s1' Hi'|? ? ? lbl e s1' ? Hi' Hr'|? ? ? o ? Hi' Hs']; subst.
  - pose proof (runs_fun _ _ _ _ _ Hi Hi') as Hq. injection Hq as <- <-. exact B'.
  - pose proof (runs_fun _ _ _ _ _ Hi Hi') as Hq. injection Hq as -> _. discriminate.
  - pose proof (runs_fun _ _ _ _ _ Hi Hi') as Hq. injection Hq as -> _. discriminate.
  - pose proof (runs_fun _ _ _ _ _ Hi Hi') as Hq. subst o. destruct r; contradiction.
Qed.

Lemma main_stops s l argv ts call s2 s3 : executes E s l argv (ts ++ [call]) s2 -> items E ts s2 s3 ->
  (forall r, runs E s3 call r -> stops r) -> forall r, script E s l argv r -> forall n s', r <> Ok n s'.
Proof.
  intros H Hi Hc r Hr n s' ->. apply H in Hr. destruct Hr as (o & B & Hend). apply (items_block_inv _ _ _ _ _ Hi) in B.
  assert (Ho : exists s5, o = Ok tt s5) by (inversion Hend; subst; eauto). destruct Ho as [s5 ->].
  inversion B as [|? ? ? v' s1' ? Hi' Hv' B'|? ? ? s1' Hi'|? ? ? lbl e s1' ? Hi' Hr'|? ? ? o ? Hi' Hs']; subst.
  - apply Hc in Hi'. eapply Hi'; reflexivity.
  - apply Hc in Hi'. eapply Hi'; reflexivity.
  - apply Hc in Hi'. eapply Hi'; reflexivity.
  - destruct o; contradiction.
Qed.

Lemma smod_256 z : smod 32 z mod 256 = z mod 256.
Proof.
  destruct (smod_cong 32 z ltac:(lia)) as [q ->]. replace (z + q * 2 ^ 32) with (z + (q * 2 ^ 24) * 256) by lia. apply Z_mod_plus_full.
Qed.

End Script.
