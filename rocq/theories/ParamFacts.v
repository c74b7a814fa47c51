(** Proofs about the binding of parameters. *)
From Coq Require Import ZArith List String Bool Lia.
From Verif Require Import CInt CIntFacts Tree State Eval StepsFacts SpecScope SpecRun StuckFacts RunFacts RunRules
  SpecExpr ExprFacts SpecControl SpecStmt ControlFacts CallFacts SpecNames NameFacts SpecTypes SpecVars VarFacts SpecCalls.
From Verif Require EvalInv.
Import ListNotations.
Local Open Scope Z_scope.
Local Open Scope m_scope.
Local Open Scope list_scope.

Section Params.
Variable E : env.

Lemma unsigned_at_same m m' n : forall a, (forall x, a <= x < a + Z.of_nat n -> m' x = m x) ->
  unsigned_at m' a n = unsigned_at m a n.
Proof.
  induction n as [|n IH]; intros a H; [reflexivity|]. cbn [unsigned_at].
  rewrite H by lia. rewrite IH; [reflexivity|]. intros x Hx. apply H. lia.
Qed.

Lemma value_at_same s s' c a : (forall x, a <= x < a + width c -> mem s' x = mem s x) ->
  value_at s' c a = value_at s c a.
Proof.
  intros H. unfold value_at. rewrite (unsigned_at_same (mem s) (mem s')); [reflexivity|].
  intros x Hx. apply H. destruct c; cbn in *; lia.
Qed.

Lemma width_bounds c : 0 < width c <= 16.
Proof. destruct c; cbn; lia. Qed.

Lemma number_new s a s' r z : new_object E s a 16 s' -> (forall x, x < a \/ a + 16 <= x -> mem s' x = mem s x) ->
  number E s r z -> number E s' r z.
Proof.
  intros (_ & _ & _ & H) Hm Hn. inversion Hn as [|c b arr n Hi Hs|t b arr n Hs]; subst.
  - constructor.
  - destruct (H b (width c) ltac:(apply width_bounds) Hs) as [Hs' Hd].
    replace (value_at s c b) with (value_at s' c b); [constructor; auto|].
    apply value_at_same. intros x Hx. apply Hm. lia.
  - destruct (H b 8 ltac:(lia) Hs) as [Hs' Hd].
    replace (unsigned_at (mem s) b 8) with (unsigned_at (mem s') b 8); [constructor; auto|].
    apply unsigned_at_same. intros x Hx. apply Hm. lia.
Qed.

Lemma number_only_gc s s' r z : only_gc E s s' -> number E s r z -> number E s' r z.
Proof.
  intros [G [H _]] Hn. inversion Hn; subst; [constructor| |].
  - rewrite <- (value_at_mem s s') by (destruct G; assumption). constructor; auto.
  - replace (mem s) with (mem s') by (destruct G; assumption). constructor; auto.
Qed.

(** One parameter. *)
Lemma bind_one rho p e s c cs : stack s = c :: cs -> ~ In (p_name p) (map fst (c_idmap c)) -> param_ok p ->
  zfind (p_label p) (statics s) = None -> new_nodes_plain s -> computed e ->
  (forall y, mentions e y -> number E s (lookup s y) (rho y)) ->
  match denote rho e with
  | None => exists s', lim E (fun k => bind_param E k (param_decl p) (syntax e)) s (Abort s')
  | Some v =>
      (exists s', lim E (fun k => bind_param E k (param_decl p) (syntax e)) s (NoMemory 16 s')) \/
      exists a s1 s2 s3 w,
        runs E s (syntax e) (Ok (T_INTEGER v) s1) /\ runs E s1 (param_decl p) (Ok (T_IDENTIFIER (p_name p)) s2) /\
        (let s2' := after_tick E s2 in
         runs E (set_fresh (fun n => n + 1) s2') (T_ASSIGN (fresh s2') (T_IDENTIFIER (p_name p)) (T_INTEGER v))
           (Ok (T_INTEGER v) s3)) /\
        stack s3 = scope_params c [(p, a)] :: cs /\ new_object E s a 16 s3 /\
        (forall x, x < a \/ a + 16 <= x -> mem s3 x = mem s x) /\ quiet s s3 /\ fresh s3 = fresh s + 1 /\
        clipped v w /\ wraps (p_type p) w (value_at s3 (p_type p) a)
  end.
Proof.
  intros Hs Hx (Hn & Hi & Hc) Hl Hf He Hg.
  destruct (computed_value E rho e s He Hg) as (s1 & G & H).
  destruct (denote rho e) as [v|].
  2:{ exists s1. unfold bind_param. apply (lim_bind_fail E _ _ _ _ _ (Abort s1) (lim_ev E _ _ _ H)). reflexivity. }
  assert (Hs1 : stack s1 = c :: cs) by (destruct G as [[] _]; congruence).
  assert (Hl1 : zfind (p_label p) (statics s1) = None) by (destruct G as [[] _]; congruence).
  destruct (parameter E (p_label p) (p_specs p) (D_T (p_type p)) 0 (p_name p) s1 c cs Hl1 Hn I Hc Hs1 (not_in_declares _ _ Hx))
    as [(s' & Hu & _)|(a & s2 & Hd & D)].
  { left. exists s'. unfold bind_param. eapply lim_bind; [apply lim_ev; exact H|].
    apply (lim_bind_fail E _ _ _ _ _ _ (lim_ev E _ _ _ Hu)). reflexivity. }
  right. cbn [stars pointer_to] in *.
  set (s2' := after_tick E s2). set (s2'' := set_fresh (fun n => n + 1) s2').
  assert (Hm2 : means s2'' (p_name p) (T_LIVE_VAR (D_T (p_type p)) a false 0))
    by (exact (declared_means E s1 _ _ a s2 c cs Hs1 Hx D)).
  destruct D as [((c0 & cs0 & T1 & T2) & NO & R) HM].
  assert (Hst2 : storage E s2'' a 16).
  { destruct NO as (S & _). exact (storage_tick E s2 a 16 S). }
  assert (Hp : plain s2'' (fresh s2') (T_IDENTIFIER (p_name p))).
  { left. change (zfind (fresh s2) (ov_asn s2) = None).
    destruct R as (_ & _ & _ & -> & _ & _ & -> & _). destruct G as [[] _]. rewrite sg_ov_asn, sg_fresh. apply Hf. lia. }
  pose proof (width_bounds (p_type p)) as Hw.
  destruct (assign_int E s2'' (fresh s2') (T_IDENTIFIER (p_name p)) (T_INTEGER v) (p_type p) a false 0 s2'' v s2'' Hp)
    as (s3 & w & Ra & W & C & V).
  { apply innermost; auto. }
  { exact Hi. }
  { apply lim_runs; [discriminate|]. apply lim_const. reflexivity. }
  { eapply storage_sub; [exact Hst2|lia|lia]. }
  exists a, s1, s2, s3, w. split; [exact H|]. split; [exact Hd|]. split; [exact Ra|].
  rewrite Hs1 in T1. injection T1 as <- <-.
  destruct W as [W1 [W2 W3]].
  assert (Hkeep : forall a' n', storage E s2 a' n' -> storage E s3 a' n').
  { intros a' n' S. apply W3. exact (storage_tick E s2 a' n' S). }
  split; [destruct W2 as [? Hst ? ? ? ? ? ? ? ? ? ?]; rewrite Hst; exact T2|].
  split.
  { destruct NO as (S & P1 & P2 & Hold). split; [apply Hkeep, S|]. split; [exact P1|]. split; [exact P2|].
    intros a' n' Hn' S'. apply G in S'. destruct (Hold a' n' Hn' S') as [S2 Ap]. split; [apply Hkeep, S2|exact Ap]. }
  split.
  { intros x Hx'. rewrite W1 by lia. change (mem s2 x = mem s x). rewrite HM. destruct G as [[] _]. congruence. }
  destruct R as (R1 & R2 & R3 & R4 & R5 & R6 & R7 & R8 & R9). destruct W2, G as [[] _]. cbn in *.
  split; [unfold quiet; repeat split; congruence|].
  split; [rewrite sg_fresh, R7; congruence|]. split; assumption.
Qed.

Lemma quiet_trans s1 s2 s3 : quiet s1 s2 -> quiet s2 s3 -> quiet s1 s3.
Proof. unfold quiet. intros (?&?&?&?&?&?&?&?) (?&?&?&?&?&?&?&?). repeat split; congruence. Qed.
Lemma quiet_refl s : quiet s s.
Proof. unfold quiet. repeat split. Qed.

Lemma binds_nil s : binds E s [] [] s.
Proof.
  split; [constructor|]. split; [constructor|]. split; [constructor|]. split; [auto|]. split; [auto|apply quiet_refl].
Qed.

Lemma binds_cons p a bs ws s s1 s2 : new_object E s a 16 s1 ->
  (forall x, x < a \/ a + 16 <= x -> mem s1 x = mem s x) -> quiet s s1 -> binds E s1 bs ws s2 ->
  binds E s ((p, a) :: bs) (value_at s1 (p_type p) a :: ws) s2.
Proof.
  intros HN Hm Hq (B1 & B2 & B3 & B4 & B5 & B6).
  pose proof HN as (S & P1 & P2 & Hold).
  assert (Hap : forall b, In b bs -> a + 16 <= snd b \/ snd b + 16 <= a).
  { intros b Hb. apply (proj1 (Forall_forall _ _) B2) in Hb. destruct Hb as (_ & _ & _ & Hb).
    destruct (Hb a 16 ltac:(lia) S) as [_ ?]. lia. }
  split.
  { constructor; [|exact B1]. cbn [fst snd].
    apply value_at_same. intros x Hx. apply B5. intros b Hb.
    specialize (Hap b Hb). pose proof (width_bounds (p_type p)). lia. }
  split.
  { constructor.
    - cbn [snd]. split; [apply B4; [lia|exact S]|]. split; [exact P1|]. split; [exact P2|].
      intros a' n' Hn' S'. destruct (Hold a' n' Hn' S') as [S1 Ap]. split; [apply B4; assumption|exact Ap].
    - rewrite Forall_forall in *. intros b Hb. destruct (B2 b Hb) as (Q1 & Q2 & Q3 & Q4).
      split; [exact Q1|]. split; [exact Q2|]. split; [exact Q3|]. intros a' n' Hn' S'.
      apply Q4; [exact Hn'|]. apply Hold; assumption. }
  split.
  { constructor; [|exact B3]. apply Forall_forall. intros b Hb. unfold apart. cbn [snd]. specialize (Hap b Hb). lia. }
  split; [intros a' n' Hn' S'; apply B4; [exact Hn'|]; apply Hold; assumption|].
  split; [|eapply quiet_trans; eauto].
  intros x Hx. rewrite B5 by (intros b Hb; apply Hx; right; exact Hb). apply Hm. apply (Hx (p, a)). left. reflexivity.
Qed.

Lemma scope_params_more c b bs : scope_params (scope_params c [b]) bs = scope_params c (b :: bs).
Proof. unfold scope_params. cbn. rewrite <- !app_assoc. reflexivity. Qed.

Lemma lookup_scope_params s s' c cs p a y : stack s = c :: cs -> stack s' = scope_params c [(p, a)] :: cs ->
  incl s' = incl s -> y <> p_name p -> lookup s' y = lookup s y.
Proof.
  intros H1 H2 H3 Hy. unfold lookup, scope_ctxs. rewrite H1, H2, H3. cbn [app map scope_params c_idmap].
  unfold param_entry. cbn [fst snd]. rewrite !resolve_maps_cons, resolve_app_other by exact Hy. reflexivity.
Qed.

Lemma lookup_param s' c cs p a : stack s' = scope_params c [(p, a)] :: cs -> ~ In (p_name p) (map fst (c_idmap c)) ->
  lookup s' (p_name p) = T_LIVE_VAR (D_T (p_type p)) a false 0.
Proof.
  intros H Hx. unfold lookup, scope_ctxs. rewrite H. cbn [app map scope_params c_idmap].
  rewrite resolve_maps_cons. unfold param_entry. cbn [fst snd]. rewrite EvalInv.resolve_id_app.
  replace (existsb _ (c_idmap c)) with false; [rewrite String.eqb_refl; reflexivity|].
  symmetry. destruct (existsb _ (c_idmap c)) eqn:He; [|reflexivity]. exfalso. apply Hx.
  apply existsb_exists in He as ([y u] & Hin & Hy). apply String.eqb_eq in Hy. cbn in Hy. subst.
  apply in_map_iff. exists (p_name p, u). auto.
Qed.

Lemma bind_list : forall ps es rho before s c cs, stack s = c :: cs -> List.length es = List.length ps ->
  (forall p, In p ps -> ~ In (p_name p) (map fst (c_idmap c))) -> NoDup (map p_name ps) -> Forall param_ok ps ->
  (forall p, In p ps -> zfind (p_label p) (statics s) = None) -> new_nodes_plain s -> Forall computed es ->
  (forall y, In y before -> number E s (lookup s y) (rho y)) ->
  reads (fun y => number E s (lookup s y) (rho y)) before ps es ->
  let go := fun k => bind_params E k (map param_decl ps) (map syntax es) in
  (exists s', lim E go s (NoMemory 16 s')) \/
  (exists s', no_value rho ps es /\ lim E go s (Abort s')) \/
  exists s' bs ws, params_bound E (map param_decl ps) (map syntax es) s s' /\ map fst bs = ps /\
    stack s' = scope_params c bs :: cs /\ passes rho ps es ws /\ binds E s bs ws s'.
Proof.
  induction ps as [|p ps IH]; intros [|e es] rho before s c cs Hs Hlen Hx Hnd Hok Hl Hf Hc Hbef Hcap; try discriminate Hlen.
  - right. right. exists s, [], []. split; [constructor|]. split; [reflexivity|].
    split; [|split; [exact I|apply binds_nil]]. rewrite Hs. unfold scope_params. cbn. rewrite !app_nil_r. destruct c; reflexivity.
  - cbn [map] in *. inversion Hnd as [|? ? Hni Hnd']; subst. inversion Hok as [|? ? Hp Hok']; subst.
    inversion Hc as [|? ? He Hc']; subst. destruct Hcap as [Hcap1 Hcap2].
    pose proof (bind_one rho p e s c cs Hs (Hx p (or_introl eq_refl)) Hp (Hl p (or_introl eq_refl)) Hf He) as H1.
    specialize (H1 (fun y Hy => match Hcap1 y Hy with or_introl H => Hbef y H | or_intror H => H end)).
    cbn [no_value]. destruct (denote rho e) as [v|] eqn:Hv.
    2:{ right. left. destruct H1 as [s' H1]. exists s'. split; [left; reflexivity|]. cbn [bind_params].
        apply (lim_bind_fail E _ _ _ _ _ (Abort s') H1). reflexivity. }
    destruct H1 as [(s' & H1)|(a & s1 & s2 & s3 & w & R1 & R2 & R3 & T & N & M & Q & F & C & V)].
    { left. exists s'. cbn [bind_params]. apply (lim_bind_fail E _ _ _ _ _ _ H1). reflexivity. }
    assert (Hstep : lim E (fun k => bind_param E k (param_decl p) (syntax e)) s (Ok tt s3)).
    { unfold bind_param. eapply lim_bind; [apply lim_ev; exact R1|]. eapply lim_bind; [apply lim_ev; exact R2|].
      eapply lim_bind; [apply lim_const; intros k; apply tick_eq|].
      eapply lim_bind; [apply lim_const; reflexivity|].
      eapply lim_bind; [apply lim_ev; exact R3|]. apply lim_const. reflexivity. }
    pose proof Q as (Q1 & _ & _ & Q4 & Q5 & _). pose proof (Hx p (or_introl eq_refl)) as Hxp.
    set (z := value_at s3 (p_type p) a) in *. set (rho' := with_var rho (p_name p) (as_long z)).
    assert (Hrec : received (p_type p) v z) by (exists w; auto).
    assert (Hnum : forall y, y = p_name p \/ number E s (lookup s y) (rho y) -> number E s3 (lookup s3 y) (rho' y)).
    { intros y Hy. unfold rho', with_var. destruct (String.eqb_spec y (p_name p)) as [->|Hne].
      - rewrite (lookup_param s3 c cs p a T Hxp). apply number_var; [apply Hp|].
        destruct N as (S & _). pose proof (width_bounds (p_type p)). eapply storage_sub; [exact S|lia|lia].
      - rewrite (lookup_scope_params s s3 c cs p a y Hs T Q1) by exact Hne. destruct Hy; [contradiction|].
        eapply number_new; eauto. }
    destruct (IH es rho' (p_name p :: before) s3 _ cs T ltac:(cbn in Hlen; lia)) as [(s' & H)|[(s' & D' & H)|(s' & bs & ws & B & Hfst & Hst & Hps & Hb)]]; auto.
    + intros p' Hp' Hin. cbn [scope_params c_idmap map param_entry fst] in Hin. rewrite map_app, in_app_iff in Hin.
      destruct Hin as [Hin|[Hin|[]]]; [apply (Hx p'); [right; exact Hp'|exact Hin]|].
      cbn [param_entry fst] in Hin. apply Hni. rewrite Hin. apply in_map, Hp'.
    + intros p' Hp'. rewrite Q5. apply Hl. right. exact Hp'.
    + intros l Hl'. rewrite Q4. apply Hf. lia.
    + intros y [<-|Hy]; apply Hnum; [left; reflexivity|right; apply Hbef, Hy].
    + revert Hcap2. clear - Hnum. generalize (p_name p :: before). revert es.
      induction ps as [|q ps IH]; intros [|e es] l; cbn; auto. intros [H1 H2]. split; [|apply IH, H2].
      intros y Hy. destruct (H1 y Hy); auto.
    + left. exists s'. cbn [bind_params]. eapply lim_bind; [exact Hstep|exact H].
    + right. left. exists s'. split; [right; exists v, z; auto|]. cbn [bind_params].
      eapply lim_bind; [exact Hstep|exact H].
    + right. right. exists s', ((p, a) :: bs), (z :: ws).
      split; [econstructor; [exact R1|exact R2|exact R3|exact B]|]. split; [cbn; congruence|].
      split; [rewrite Hst, scope_params_more; reflexivity|].
      split; [cbn [passes]; split; [exists v; auto|exact Hps]|].
      eapply binds_cons; eauto.
Qed.

(** Opening the activation changes nothing in use. *)
Lemma open_storage name s a n : storage E s a n -> storage E (open_activation E name s) a n.
Proof. intros H. exact (storage_tick E s a n H). Qed.

Lemma binds_open name bs ws s s' : binds E (open_activation E name s) bs ws s' -> binds E s bs ws s'.
Proof.
  intros (B1 & B2 & B3 & B4 & B5 & B6). split; [exact B1|]. split.
  { rewrite Forall_forall in *. intros b Hb. destruct (B2 b Hb) as (Q1 & Q2 & Q3 & Q4).
    split; [exact Q1|]. split; [exact Q2|]. split; [exact Q3|]. intros a' n' Hn S. apply Q4; [exact Hn|]. apply open_storage, S. }
  split; [exact B3|]. split; [intros a n Hn S; apply B4; [exact Hn|apply open_storage, S]|].
  split; [exact B5|exact B6].
Qed.

Lemma number_open name s r z : number E s r z -> number E (open_activation E name s) r z.
Proof.
  intros H. inversion H as [|c a arr n Hi Hs|t a arr n Hs]; subst; [constructor| |].
  - change (value_at s c a) with (value_at (open_activation E name s) c a). constructor; [exact Hi|apply open_storage, Hs].
  - change (mem s) with (mem (open_activation E name s)). constructor. apply open_storage, Hs.
Qed.

Lemma call_binding f args name params rt body s s1 r : r <> Fuel ->
  runs E s f (Ok (T_FN (T_IDENTIFIER name) params rt body) s1) -> body <> NULL -> params <> NULL ->
  List.length (chain_elems args) = List.length (chain_elems params) ->
  (forall a s', r <> Ok a s') -> (forall i s', r <> Jmp i s') ->
  forall o, lim E (fun k => bind_params E k (chain_elems params) (chain_elems args)) (open_activation E name s1) o ->
  same_stop o r -> runs E s (T_FN_CALL f args) r.
Proof.
  intros Hr Hf Hb Hp Hlen Hok Hjmp o H Hst.
  eapply call_lim; [exact Hr|exact Hf|exact Hb|]. unfold call_defined.
  eapply lim_bind; [apply lim_const; reflexivity|]. cbn beta.
  eapply lim_bind; [apply lim_const; reflexivity|]. cbn beta.
  eapply lim_bind; [apply lim_const; reflexivity|]. cbn beta.
  eapply lim_bind; [apply lim_const; intros k; unfold top; cbn; reflexivity|]. cbn beta.
  change (lim E (fun k => match params with NULL => ret tt
    | _ => if Nat.eqb (List.length (chain_elems args)) (List.length (chain_elems params))
           then bind_params E k (chain_elems params) (chain_elems args) else die end ;;
    jmp_ctx <- top ;; catch (c_id jmp_ctx) (evaluate_stmts E k body) (fun _ => pop_ctx ;; ret NULL)
      (pop_until (fresh (after_tick E s1)) ;; c <- top ;; pop_ctx ;; ret (c_retval c))) (open_activation E name s1) r).
  destruct H as [m H]. exists m. intros j Hj.
  assert (Heq : match params with NULL => ret tt
    | _ => if Nat.eqb (List.length (chain_elems args)) (List.length (chain_elems params))
           then bind_params E (K E j) (chain_elems params) (chain_elems args) else die end (open_activation E name s1) = o).
  { destruct params; try congruence; rewrite Hlen, Nat.eqb_refl; apply H; exact Hj. }
  unfold bind at 1. rewrite Heq. destruct o, r; cbn in Hst; try contradiction; try congruence.
  all: destruct Hst; congruence.
Qed.

Theorem parameters rho f name rt body s s1 ps es :
  runs E s f (Ok (T_FN (T_IDENTIFIER name) (CHAIN_HEAD (map param_decl ps)) rt body) s1) -> body <> NULL ->
  List.length es = List.length ps -> Forall param_ok ps -> NoDup (map p_name ps) ->
  (forall p, In p ps -> zfind (p_label p) (statics s1) = None) -> new_nodes_plain s1 ->
  Forall computed es -> reads (fun y => number E s1 (lookup s1 y) (rho y)) [] ps es ->
  let args := CHAIN_HEAD (map syntax es) in
  out_of_memory E s (T_FN_CALL f args) 16 \/
  (exists s', no_value rho ps es /\ runs E s (T_FN_CALL f args) (Abort s')) \/
  exists s2 bs ws, entered E name (CHAIN_HEAD (map param_decl ps)) args s1 s2 /\ map fst bs = ps /\
    stack s2 = scope_params (new_scope (fresh s1) name) bs :: stack s1 /\
    passes rho ps es ws /\ binds E s1 bs ws s2.
Proof.
  intros Hf Hb Hlen Hok Hnd Hl Hfr Hc Hg args.
  set (s0 := open_activation E name s1).
  destruct (bind_list ps es rho [] s0 (new_scope (fresh s1) name) (stack s1)) as [(s' & H)|[(s' & D & H)|(s' & bs & ws & B & Hfst & Hst & Hps & Hb')]]; auto.
  - intros l Hl'. apply Hfr. cbn in Hl'. lia.
  - intros y [].
  - revert Hg. generalize (@nil string). clear. revert es. induction ps as [|p ps IH]; intros [|e es] l; cbn; auto.
    intros [H1 H2]. split; [|apply IH, H2]. intros y Hy. destruct (H1 y Hy); [auto|right].
    change (lookup s0 y) with (lookup s1 y). apply number_open. auto.
  - left. apply (oom E _ _ _ s'). eapply call_binding; eauto; try discriminate. cbn. rewrite !map_length. exact Hlen. split; reflexivity.
  - right. left. exists s'. split; [exact D|].
    eapply call_binding; eauto; try discriminate. cbn. rewrite !map_length. exact Hlen. reflexivity.
  - right. right. exists s', bs, ws. split; [right; split; [discriminate|exact B]|]. split; [exact Hfst|].
    split; [exact Hst|]. split; [exact Hps|]. eapply binds_open. exact Hb'.
Qed.

(** Names of the parameters. *)
Lemma param_means s c cs bs p a : stack s = scope_params c bs :: cs -> c_idmap c = [] -> NoDup (map p_name (map fst bs)) ->
  In (p, a) bs -> means s (p_name p) (T_LIVE_VAR (D_T (p_type p)) a false 0).
Proof.
  intros Hs Hc Hnd Hin.
  assert (Hf : resolve_id (p_name p) (map param_entry bs) = T_LIVE_VAR (D_T (p_type p)) a false 0).
  { clear Hs. induction bs as [|[q b] bs IH]; [contradiction|]. cbn [map param_entry fst snd resolve_id].
    cbn [map fst] in Hnd. inversion Hnd as [|? ? Hni Hnd']; subst.
    destruct Hin as [Hin|Hin].
    - injection Hin as -> ->. unfold param_entry. cbn. rewrite String.eqb_refl. reflexivity.
    - unfold param_entry at 1. cbn. destruct (String.eqb_spec (p_name q) (p_name p)) as [He|He]; [|auto].
      exfalso. apply Hni. rewrite He. apply in_map_iff. exists p. split; [reflexivity|].
      apply in_map_iff. exists (p, a). auto. }
  apply means_lookup; [discriminate|]. unfold lookup, scope_ctxs. rewrite Hs. cbn [app map scope_params c_idmap].
  rewrite resolve_maps_cons, Hc. cbn [app]. rewrite Hf. reflexivity.
Qed.

Lemma param_lookup s c cs bs p a : stack s = scope_params c bs :: cs -> c_idmap c = [] -> NoDup (map p_name (map fst bs)) ->
  In (p, a) bs -> lookup s (p_name p) = T_LIVE_VAR (D_T (p_type p)) a false 0.
Proof. intros H1 H2 H3 H4. apply means_lookup; [discriminate|]. eapply param_means; eauto. Qed.

Lemma not_param_lookup s s1 c bs y : stack s = scope_params c bs :: stack s1 -> c_idmap c = [] -> incl s = incl s1 ->
  ~ In y (map p_name (map fst bs)) -> lookup s y = lookup s1 y.
Proof.
  intros Hs Hc Hi Hy. unfold lookup, scope_ctxs. rewrite Hs, Hi. cbn [app map scope_params c_idmap].
  rewrite resolve_maps_cons, Hc. cbn [app].
  replace (resolve_id y (map param_entry bs)) with NULL; [reflexivity|]. symmetry.
  clear Hs. induction bs as [|[q b] bs IH]; [reflexivity|]. cbn [map fst] in Hy. unfold param_entry at 1. cbn.
  destruct (String.eqb_spec (p_name q) y) as [He|He]; [exfalso; apply Hy; left; exact He|]. apply IH. intros H. apply Hy. right. exact H.
Qed.

Lemma number_binds s bs ws s' r z : binds E s bs ws s' -> number E s r z -> number E s' r z.
Proof.
  intros (_ & B2 & _ & B4 & B5 & _) Hn.
  assert (Hm : forall a n, 0 < n -> storage E s a n -> forall x, a <= x < a + n -> mem s' x = mem s x).
  { intros a n Hn' S x Hx. apply B5. intros b Hb. rewrite Forall_forall in B2. destruct (B2 b Hb) as (_ & _ & _ & H).
    destruct (H a n Hn' S) as [_ Hd]. lia. }
  inversion Hn as [|c b arr n Hi Hs|t b arr n Hs]; subst; [constructor| |].
  - replace (value_at s c b) with (value_at s' c b); [constructor; auto; apply B4; auto; apply width_bounds|].
    apply value_at_same. apply Hm; [apply width_bounds|exact Hs].
  - replace (unsigned_at (mem s) b 8) with (unsigned_at (mem s') b 8); [constructor; apply B4; auto; lia|].
    apply unsigned_at_same. apply Hm; [lia|exact Hs].
Qed.

Lemma body_vars_other : forall ps ws rho y, ~ In y (map p_name ps) -> body_vars rho ps ws y = rho y.
Proof.
  induction ps as [|p ps IH]; intros [|w ws] rho y H; auto. cbn [body_vars map] in *.
  rewrite IH by (intros Hi; apply H; right; exact Hi). unfold with_var.
  destruct (String.eqb_spec y (p_name p)) as [->|]; [exfalso; apply H; left; reflexivity|reflexivity].
Qed.

Lemma body_vars_param : forall bs ws rho (P : param * Z -> Z -> Prop) b, Forall2 P bs ws -> NoDup (map p_name (map fst bs)) ->
  In b bs -> exists w, P b w /\ body_vars rho (map fst bs) ws (p_name (fst b)) = as_long w.
Proof.
  induction bs as [|q bs IH]; intros ws rho P b H Hnd Hin; [contradiction|]. inversion H as [|? w ? ws' H1 H2]; subst.
  cbn [map] in Hnd. inversion Hnd as [|? ? Hni Hnd']; subst. cbn [map body_vars]. destruct Hin as [<-|Hin].
  - exists w. split; [exact H1|]. rewrite body_vars_other by exact Hni. unfold with_var. rewrite String.eqb_refl. reflexivity.
  - eapply IH; eauto.
Qed.

Lemma body_numbers rho s1 s2 ps bs ws c y : map fst bs = ps -> NoDup (map p_name ps) -> Forall param_ok ps ->
  stack s2 = scope_params c bs :: stack s1 -> c_idmap c = [] -> binds E s1 bs ws s2 ->
  In y (map p_name ps) \/ number E s1 (lookup s1 y) (rho y) ->
  number E s2 (lookup s2 y) (body_vars rho ps ws y).
Proof.
  intros <- Hnd Hok Hst Hc Hb Hy.
  destruct (in_dec String.string_dec y (map p_name (map fst bs))) as [Hin|Hin].
  - apply in_map_iff in Hin as (p & <- & Hp). apply in_map_iff in Hp as ([q a] & <- & Hp). cbn [fst] in *.
    pose proof Hb as (B1 & B2 & _).
    destruct (body_vars_param bs ws rho _ (q, a) B1 Hnd Hp) as (w & Hw & Hbv). cbn [fst snd] in Hw, Hbv. subst w. rewrite Hbv.
    rewrite (param_lookup s2 c (stack s1) bs q a Hst Hc Hnd Hp).
    rewrite Forall_forall in B2, Hok. destruct (B2 _ Hp) as (S & _). cbn [snd] in S.
    destruct (Hok q) as (_ & Hi & _); [apply in_map_iff; exists (q, a); auto|].
    apply number_var; [exact Hi|]. pose proof (width_bounds (p_type q)). eapply storage_sub; [exact S|lia|lia].
  - rewrite body_vars_other by exact Hin. pose proof Hb as (_ & _ & _ & _ & _ & Q). destruct Q as (Q1 & _).
    rewrite (not_param_lookup s2 s1 c bs y Hst Hc Q1 Hin). destruct Hy as [Hy|Hy]; [contradiction|].
    eapply number_binds; eauto.
Qed.

(** A function whose body is [return e;]. *)
Theorem call_value rho f name rt l e s s1 ps es : reachable E s ->
  runs E s f (Ok (T_FN (T_IDENTIFIER name) (CHAIN_HEAD (map param_decl ps)) rt (CHAIN_HEAD [T_RETURN l (syntax e)])) s1) ->
  List.length es = List.length ps -> Forall param_ok ps -> NoDup (map p_name ps) ->
  (forall p, In p ps -> zfind (p_label p) (statics s1) = None) -> new_nodes_plain s1 -> zfind l (ov_ret s1) = None ->
  Forall computed es -> computed e -> reads (fun y => number E s1 (lookup s1 y) (rho y)) [] ps es ->
  (forall y, mentions e y -> In y (map p_name ps) \/ number E s1 (lookup s1 y) (rho y)) ->
  let call := T_FN_CALL f (CHAIN_HEAD (map syntax es)) in
  out_of_memory E s call 16 \/
  (exists s', no_value rho ps es /\ runs E s call (Abort s')) \/
  exists ws, passes rho ps es ws /\
    match denote (body_vars rho ps ws) e with
    | Some v => exists s', runs E s call (Ok (T_INTEGER v) s') /\ stack s' = stack s1
    | None => exists s', runs E s call (Abort s')
    end.
Proof.
  intros Hr Hf Hlen Hok Hnd Hl Hfr Hret Hc He Hrd Hm call.
  destruct (parameters rho f name rt _ s s1 ps es Hf ltac:(discriminate) Hlen Hok Hnd Hl Hfr Hc Hrd)
    as [H|[H|(s2 & bs & ws & Hen & Hfst & Hst & Hps & Hb)]]; [left; exact H|right; left; exact H|].
  right. right. exists ws. split; [exact Hps|].
  assert (Hg : forall y, mentions e y -> number E s2 (lookup s2 y) (body_vars rho ps ws y)).
  { intros y Hy. eapply (body_numbers rho s1 s2 ps bs ws); eauto. }
  destruct (computed_value E (body_vars rho ps ws) e s2 He Hg) as (s3 & G & H).
  pose proof Hb as (_ & _ & _ & _ & _ & Q). destruct Q as (_ & _ & Q3 & _).
  assert (Hret2 : zfind l (ov_ret s2) = None) by congruence.
  destruct (denote (body_vars rho ps ws) e) as [v|].
  - assert (Hact : activation (stack s3) = Some (fresh s1)).
    { destruct G as [[] _]. rewrite sg_stack, Hst. reflexivity. }
    set (s4 := set_ov_ret (fun o => (l, T_INTEGER v) :: o) s3).
    assert (Hrun : runs E s2 (T_RETURN l (syntax e)) (Ok (T_RETURN l (syntax e)) s4)).
    { apply StmtFacts.return_spec. left. exists (T_INTEGER v), s3. split; [|reflexivity]. unfold returned. rewrite Hret2. exact H. }
    eexists. split; [|shelve].
    eapply (call_returns E s f _ name _ rt _ s1 s2 (T_INTEGER v)); [exact Hr|exact Hf|exact Hen| |].
    + exists (scope_params (new_scope (fresh s1) name) bs), (stack s1). split; [exact Hst|reflexivity].
    + apply (ret_here E [] l (syntax e) [] s2 s2 (fresh s1) (T_INTEGER v) s4); [constructor|exact Hrun| |exact Hact].
      unfold returned, s4. cbn. rewrite Z.eqb_refl. reflexivity.
    Unshelve. reflexivity.
  - exists s3. eapply (call_stops E s f _ name _ rt _ s1 s2 (Abort s3) (Abort s3)); [exact Hf|discriminate| |exact Hen| |discriminate|reflexivity].
    { rewrite Hst. discriminate. }
    apply lim_body; [discriminate|].
    assert (Hrun : runs E s2 (T_RETURN l (syntax e)) (Abort s3)).
    { apply StmtFacts.return_spec. right. exists (Abort s3). unfold returned. rewrite Hret2. split; [exact H|reflexivity]. }
    apply lim_ev in Hrun. destruct Hrun as [n Hrun]. exists n. intros j Hj.
    cbn [evaluate_stmts evaluate_chain]. unfold bind at 1. rewrite (Hrun j Hj). reflexivity.
Qed.

(** A value depends only on the variables mentioned. *)
Lemma denote_mentions rho rho' e : (forall y, mentions e y -> rho y = rho' y) -> denote rho e = denote rho' e.
Proof.
  induction e; cbn; intros H; auto.
  all: try (rewrite H by auto; reflexivity).
  all: repeat match goal with IH : (forall y, mentions ?e y -> _) -> _ |- _ =>
         rewrite IH by (intros; apply H; tauto); clear IH end; reflexivity.
Qed.

(** Without capture the values are those in the caller. *)
Theorem passes_no_capture rho : forall ps es ws, no_capture [] ps es -> passes rho ps es ws ->
  exists vs, Forall2 (fun e v => denote rho e = Some v) es vs /\
    Forall2 (fun pv w => received (p_type (fst pv)) (snd pv) w) (combine ps vs) ws.
Proof.
  assert (H : forall ps es ws rho' before, (forall y, ~ In y before -> rho' y = rho y) ->
    no_capture before ps es -> passes rho' ps es ws ->
    exists vs, Forall2 (fun e v => denote rho e = Some v) es vs /\
    Forall2 (fun pv w => received (p_type (fst pv)) (snd pv) w) (combine ps vs) ws).
  { induction ps as [|p ps IH]; intros [|e es] [|w ws] rho' before Hr Hn Hp; cbn in Hp; try contradiction.
    - exists []. split; constructor.
    - destruct Hp as [(v & Hv & Hw) Hp]. destruct Hn as [Hn1 Hn2].
      destruct (fun H => IH es ws (with_var rho' (p_name p) (as_long w)) (p_name p :: before) H Hn2 Hp) as (vs & V1 & V2).
      { intros y Hy. cbn in Hy. unfold with_var. destruct (String.eqb_spec y (p_name p)) as [->|]; [tauto|]. apply Hr. tauto. }
      exists (v :: vs). split; constructor; auto.
      rewrite <- Hv. symmetry. apply denote_mentions. intros y Hy. apply Hr, Hn1, Hy. }
  intros ps es ws Hn Hp. eapply H; eauto.
Qed.

End Params.
