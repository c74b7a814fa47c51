(** Proofs about static variables and storage in use. *)
From Coq Require Import ZArith List String Bool Lia.
From Verif Require Import CInt CIntFacts Tree State Eval StepsFacts EvalInv SpecScope SpecRun StuckFacts RunFacts RunRules
  SpecExpr ExprFacts SpecControl SpecStmt ControlFacts CallFacts SpecNames NameFacts SpecTypes SpecVars VarFacts
  OnceFacts SpecStatic.
Import ListNotations.
Local Open Scope Z_scope.
Local Open Scope m_scope.
Local Open Scope list_scope.

Section Static.
Variable E : env.

(** ** A static declaration met again *)

Lemma roots_names f s : (forall c, c_allocs (f c) = c_allocs c) -> roots E (with_top f s) = roots E s.
Proof. intros H. unfold roots. rewrite with_top_allocs by exact H. reflexivity. Qed.

Lemma storage_names f s a n : (forall c, c_allocs (f c) = c_allocs c) -> storage E s a n -> storage E (with_top f s) a n.
Proof.
  intros Hf (b & H1 & H2 & H3 & H4). exists b. split; [exact H1|]. split; [exact H2|]. split; [exact H3|].
  rewrite roots_names by exact Hf. exact H4.
Qed.

Lemma mapped_added s x v c cs : stack s = c :: cs -> names_added E s [(x, v)] (mapped E x v s).
Proof.
  intros Hs. split; [exists c, cs; split; [exact Hs|]|split; [reflexivity|split; [repeat split|]]].
  - unfold mapped, with_top. cbn [stack set_stack after_tick set_ticks set_closures set_blocks]. rewrite Hs. reflexivity.
  - intros a n H. apply storage_names; [reflexivity|]. apply storage_tick, H.
Qed.

Lemma added_trans s m1 s1 m2 s2 : names_added E s m1 s1 -> names_added E s1 m2 s2 -> names_added E s (m1 ++ m2) s2.
Proof.
  intros ((c & cs & A1 & A2) & A3 & A4 & A5) ((c' & cs' & B1 & B2) & B3 & B4 & B5).
  split; [|split; [congruence|split; [|auto]]].
  - exists c, cs. split; [exact A1|]. rewrite B2. rewrite A2 in B1. injection B1 as <- <-.
    unfold scope_names. cbn. rewrite app_assoc. reflexivity.
  - unfold same_rest in *. intuition congruence.
Qed.

Lemma added_refl s c cs : stack s = c :: cs -> names_added E s [] s.
Proof.
  intros H. split; [exists c, cs; split; [exact H|]|split; [reflexivity|split; [repeat split|auto]]].
  rewrite H. unfold scope_names. rewrite app_nil_r. destruct c; reflexivity.
Qed.

Lemma resolve_not_in x m : ~ In x (map fst m) -> resolve_id x m = NULL.
Proof.
  induction m as [|[y v] m IH]; cbn; auto. intros H. destruct (String.eqb_spec y x); [exfalso; auto|]. apply IH. tauto.
Qed.

Lemma last_any A (a d d' : A) l : last (a :: l) d = last (a :: l) d'.
Proof. revert a. induction l as [|b l IH]; intros a; [reflexivity|]. exact (IH b). Qed.
Lemma last_shift A (a d : A) l : last (a :: l) d = last l a.
Proof. destruct l as [|b l]; [reflexivity|]. exact (last_any A b d a l). Qed.

Lemma again_chain : forall m s c cs t0, stack s = c :: cs -> NoDup (map fst m) ->
  (forall x, In x (map fst m) -> ~ In x (map fst (c_idmap c))) ->
  exists s', foldM (fun _ m => map_identifier E (T_IDENTIFIER (fst m)) (snd m) ;; ret (T_IDENTIFIER (fst m))) t0 m s =
    Ok (last (map (fun e => T_IDENTIFIER (fst e)) m) t0) s' /\ names_added E s m s'.
Proof.
  induction m as [|[x v] m IH]; intros s c cs t0 Hs Hnd Hx.
  - exists s. split; [reflexivity|]. eapply added_refl, Hs.
  - cbn [map fst] in Hnd, Hx. inversion Hnd as [|? ? Hni Hnd']; subst.
    assert (Hr : resolve_id x (c_idmap c) = NULL) by (apply resolve_not_in, Hx; left; reflexivity).
    pose proof (map_identifier_cases E x v s c cs Hs) as Hm. rewrite Hr in Hm. cbn [is_NULL] in Hm.
    pose proof (mapped_added s x v c cs Hs) as Ha. pose proof Ha as ((c0 & cs0 & A1 & A2) & _).
    rewrite Hs in A1. injection A1 as <- <-.
    destruct (IH (mapped E x v s) (scope_names c [(x, v)]) cs (T_IDENTIFIER x) A2 Hnd') as (s' & H1 & H2).
    { intros y Hy Hin. cbn [scope_names c_idmap] in Hin. rewrite map_app, in_app_iff in Hin. cbn in Hin.
      destruct Hin as [Hin|[<-|[]]]; [eapply Hx; [right; exact Hy|exact Hin]|contradiction]. }
    exists s'. split; [|exact (added_trans s [(x, v)] _ m s' Ha H2)].
    cbn [foldM fst snd]. unfold bind at 1 2. rewrite Hm. unfold ret at 1. rewrite H1. f_equal.
    cbn [map fst]. symmetry. apply last_shift.
Qed.

Theorem static_again l m al specs decls s c cs : static_entry s l m al -> stack s = c :: cs ->
  NoDup (map fst m) -> (forall x, In x (map fst m) -> ~ In x (map fst (c_idmap c))) ->
  exists s', runs E s (T_DECL l specs decls) (Ok (last (map (fun e => T_IDENTIFIER (fst e)) m) NULL) s') /\
    names_added E s m s'.
Proof.
  intros Hl Hs Hnd Hx. destruct (again_chain m s c cs NULL Hs Hnd Hx) as (s' & H & Ha).
  exists s'. split; [|exact Ha]. apply lim_runs; [discriminate|]. apply lim_const. intros k. cbn [evaluate_1].
  rewrite Hl. exact H.
Qed.

(** ** Every successful static declaration is recorded *)

Lemma again_ok : forall m s t0 v s', stack s <> [] ->
  foldM (fun _ m => map_identifier E (T_IDENTIFIER (fst m)) (snd m) ;; ret (T_IDENTIFIER (fst m))) t0 m s = Ok v s' ->
  names_added E s m s'.
Proof.
  induction m as [|[x w] m IH]; intros s t0 v s' Hs H; destruct (stack s) as [|c cs] eqn:Hc; try congruence.
  - injection H as _ <-. eapply added_refl, Hc.
  - cbn [foldM fst snd] in H. apply bind_ok in H as (u & s1 & H1 & H).
    apply bind_ok in H1 as (u1 & s2 & H1 & H2). injection H2 as _ <-.
    pose proof (map_identifier_cases E x w s c cs Hc) as Hm. rewrite H1 in Hm.
    destruct (is_NULL _); [|discriminate Hm]. injection Hm as _ ->.
    pose proof (mapped_added s x w c cs Hc) as Ha.
    apply (added_trans s [(x, w)] (mapped E x w s) m s' Ha). eapply IH; [|exact H].
    destruct Ha as ((c0 & cs0 & _ & A2) & _). rewrite A2. discriminate.
Qed.

Theorem static_recorded l specs decls s v s' : zfind l (statics s) = None ->
  In (T_SPEC T_STATIC) (chain_elems specs) -> ~ In (T_SPEC T_TYPEDEF) (chain_elems specs) -> ~ In (T_SPEC T_EXTERN) (chain_elems specs) ->
  is_NULL decls = false -> static_fn (chain_elems decls) = None ->
  runs E s (T_DECL l specs decls) (Ok v s') ->
  exists m al, static_entry s' l m al /\ exists c cs, stack s' = scope_names c m :: cs.
Proof.
  intros Hl Hst Hty Hex Hd Hfn H. apply runs_lim in H. destruct H as [n H]. specialize (H n (le_n n)).
  cbn [evaluate_1] in H. rewrite Hl in H. unfold eval_decl in H.
  apply bind_ok in H as (t0 & s1 & _ & H). apply bind_ok in H as (q & s1' & Hq & H). injection Hq as <- <-.
  rewrite Hd in H. apply bind_ok in H as (ty & s2 & _ & H).
  assert (HT : chain_has T_TYPEDEF specs = false).
  { unfold chain_has. destruct (existsb _ _) eqn:He; [|reflexivity]. exfalso. apply Hty.
    apply existsb_exists in He as (y & Hin & Hy). destruct y; try discriminate Hy.
    all: match goal with H : In (T_SPEC ?q) _ |- _ => destruct q; try discriminate Hy; exact H end. }
  assert (HX : chain_has T_EXTERN specs = false).
  { unfold chain_has. destruct (existsb _ _) eqn:He; [|reflexivity]. exfalso. apply Hex.
    apply existsb_exists in He as (y & Hin & Hy). destruct y; try discriminate Hy.
    all: match goal with H : In (T_SPEC ?q) _ |- _ => destruct q; try discriminate Hy; exact H end. }
  assert (HS : chain_has T_STATIC specs = true).
  { unfold chain_has. apply existsb_exists. exists (T_SPEC T_STATIC). auto. }
  rewrite HT, HX, HS in H. unfold handle_static_decl in H. rewrite Hfn in H.
  apply bind_ok in H as (u & s3 & _ & H). apply bind_ok in H as (r & s4 & _ & H).
  apply bind_ok in H as (c & s5 & Htop & H). apply bind_ok in H as (u2 & s6 & Hset & H).
  apply bind_ok in H as (u3 & s7 & Htk & H). apply bind_ok in H as (u4 & s8 & Hpop & H).
  apply bind_ok in H as (w & s9 & Hev & H). injection H as _ <-.
  exists (c_idmap c), (c_allocs c). unfold static_entry.
  assert (Hne : stack s8 <> []).
  { unfold pop_ctx in Hpop. destruct (stack s7) as [|c1 [|c2 cs]]; try discriminate Hpop. injection Hpop as _ Hpop.
    rewrite <- Hpop. discriminate. }
  assert (H8 : zfind l (statics s8) = Some (c_idmap c, c_allocs c)).
  { unfold modify in Hset. injection Hset as _ Hset. rewrite tick_eq in Htk. injection Htk as _ Htk.
    assert (Hz : statics s7 = (l, (c_idmap c, c_allocs c)) :: statics s5) by (rewrite <- Htk, <- Hset; reflexivity).
    unfold pop_ctx in Hpop. destruct (stack s7) as [|c1 [|c2 cs]]; try discriminate Hpop. injection Hpop as _ Hpop.
    rewrite <- Hpop. cbn [statics set_stack]. rewrite Hz. cbn. rewrite Z.eqb_refl. reflexivity. }
  split.
  - apply (static_kept_runs E l (c_idmap c, c_allocs c) s8 (T_DECL l specs decls) (Ok w s9) s9 H8); [|reflexivity].
    apply (runs_intro E s8 _ _ n Hev). discriminate.
  - destruct n as [|n]; [discriminate Hev|].
    change (k_ev (K E (S n)) (T_DECL l specs decls) s8) with (evaluate_1 E (K E n) (T_DECL l specs decls) s8) in Hev.
    cbn [evaluate_1] in Hev. rewrite H8 in Hev. apply again_ok in Hev; [|exact Hne].
    destruct Hev as ((c0 & cs0 & _ & A) & _). eauto.
Qed.

(** ** Storage in use *)

Lemma in_use_roots s base : in_use E s base <-> In base (roots E s).
Proof.
  unfold roots. rewrite !in_app_iff, !in_flat_map. split.
  - intros [c H1 H2|c H1 H2|l m al H1 H2 H3].
    + left. eauto.
    + right. left. rewrite H1. exact H2.
    + right. right. exists (l, (m, al)). split; [exact H1|]. cbn. rewrite H2. exact H3.
  - intros [(c & H1 & H2)|[H|((l & m & al) & H1 & H2)]].
    + eapply use_scope; eauto.
    + destruct (incl s) as [c|] eqn:Hi; [|contradiction]. eapply use_header; eauto.
    + cbn in H2. destruct (e_rooted E l) eqn:Hr; [|contradiction]. eapply use_static; eauto.
Qed.

Theorem in_use_allocated s base : reachable E s -> in_use E s base -> exists n, allocated s base n.
Proof.
  intros Hr H. apply in_use_roots in H. apply wf_reachable in Hr as (_ & _ & Hw).
  destruct (Hw base H) as [n Hn]. exists n, true. exact Hn.
Qed.

Theorem allocated_apart s b1 n1 b2 n2 : reachable E s -> allocated s b1 n1 -> allocated s b2 n2 ->
  b1 = b2 /\ n1 = n2 \/ b1 <> b2 /\ (b1 + n1 <= b2 \/ b2 + n2 <= b1).
Proof.
  intros Hr [t1 H1] [t2 H2]. apply wf_reachable in Hr as (_ & Hw & _).
  destruct (Z.eq_dec b1 b2) as [->|Hne].
  - left. assert (He : mkblock b2 n1 t1 = mkblock b2 n2 t2) by (eapply same_base; eauto). injection He as -> _. auto.
  - right. split; [exact Hne|]. unfold wf_blocks in Hw. induction Hw as [|x l Hx Hl IH]; [contradiction|].
    rewrite Forall_forall in Hx. destruct H1 as [->|H1], H2 as [H2|H2].
    + injection H2 as -> _. congruence.
    + apply Hx in H2. unfold apart, disjoint_blocks in H2. cbn in H2. apply orb_true_iff in H2. rewrite !Z.leb_le in H2. lia.
    + subst x. apply Hx in H1. unfold apart, disjoint_blocks in H1. cbn in H1. apply orb_true_iff in H1. rewrite !Z.leb_le in H1. lia.
    + auto.
Qed.

(** One step does not free what is in use. *)
Theorem in_use_kept s s' base n : reachable E s -> step E s s' -> in_use E s base -> allocated s base n -> allocated s' base n.
Proof.
  intros Hr Hs Hu [t Hb]. apply in_use_roots in Hu. apply wf_reachable in Hr as (_ & Hw & Hwr).
  destruct (Hwr base Hu) as [m Hm].
  assert (He : mkblock base n t = mkblock base m true) by (eapply same_base; eauto). injection He as -> ->.
  exists true. destruct Hs; try exact Hb.
  - apply in_tick; [exact Hb|exact Hu].
  - right. exact Hb.
  - cbn. apply in_map_iff. eexists. split; [apply mark_true|exact Hb].
  - cbn. apply free_keeps_tracked; auto.
Qed.

Lemma static_in_steps e s s' : steps E s s' -> In e (statics s) -> In e (statics s').
Proof.
  induction 1; auto. intros H1. specialize (IHsteps H1). destruct H0; auto. right. exact IHsteps.
Qed.

Theorem static_storage l m al s s' a n : reachable E s -> steps E s s' -> In (l, (m, al)) (statics s) -> e_rooted E l = true ->
  In a al -> allocated s a n -> allocated s' a n.
Proof.
  intros Hr Hs. induction Hs as [|s1 s2 Hs IH H1]; auto. intros He Hro Ha Hal.
  eapply in_use_kept; [eapply reachable_steps; [exact Hr|exact Hs]|exact H1| |auto].
  eapply use_static; eauto. eapply static_in_steps; eauto.
Qed.

Theorem scope_storage i a n s s' : reachable E s -> steps E s s' ->
  (exists c, In c (stack s) /\ c_id c = i /\ In a (c_allocs c)) -> (exists c, In c (stack s') /\ c_id c = i) ->
  allocated s a n -> allocated s' a n.
Proof.
  intros Hr Hs (c & Hc & Hi & Ha) (c' & Hc' & Hi') [t Hb].
  pose proof (wf_reachable _ _ Hr) as Hwf. destruct Hwf as (Hid & Hw & Hwr).
  destruct (Hwr a) as [m Hm]; [eapply alloc_in_roots; eauto|].
  assert (He : mkblock a n t = mkblock a m true) by (eapply same_base; eauto). injection He as -> ->.
  exists true. assert (Hh : holds_alloc i a m s).
  { split; [destruct Hid as [Hid _]; rewrite Forall_forall in Hid; specialize (Hid c Hc); lia|].
    intros d Hd Hdi. split; [|exact Hb].
    replace d with c; [exact Ha|]. destruct Hid as [_ Hid]. clear - Hid Hc Hd Hi Hdi.
    induction (stack s) as [|x l IH]; [contradiction|]. cbn in Hid. inversion Hid as [|? ? Hn Hl]; subst.
    destruct Hc as [->|Hc], Hd as [->|Hd]; auto.
    - exfalso. apply Hn. rewrite <- Hdi. apply in_map, Hd.
    - exfalso. apply Hn. rewrite Hdi. apply in_map, Hc. }
  destruct (holds_alloc_steps E i a m s s' Hs (wf_reachable _ _ Hr) Hh) as [_ Hk]. apply (Hk c' Hc' Hi').
Qed.

(** ** The first execution *)

(** One declarator with initialiser, whatever surrounds it. *)
Lemma init_each rho e ct al x s c cs : integer_type ct = true -> stack s = c :: cs -> ~ In x (map fst (c_idmap c)) ->
  plain s al (T_IDENTIFIER x) -> computed e -> ~ mentions e x ->
  (forall y, mentions e y -> number E s (lookup s y) (rho y)) ->
  let go := fun k => each_decl (fun d => k_hd k d (D_T ct)) (CHAIN_HEAD [T_ASSIGN al (T_IDENTIFIER x) (syntax e)]) in
  (exists s', lim E go s (NoMemory 16 s')) \/
  exists a s1, declared E s x (D_T ct) a s1 /\
    let s2 := set_ov_asn (fun o => (al, T_IDENTIFIER x) :: o) s1 in
    match denote rho e with
    | Some v => exists s' w, lim E go s (Ok (T_IDENTIFIER x) s') /\ only_writes E s2 a (width ct) s' /\
        clipped v w /\ wraps ct w (value_at s' ct a)
    | None => exists s', lim E go s (Abort s')
    end.
Proof.
  intros Hi Hs Hx Hp He Hm Hg go.
  assert (Hdd : forall r, lim E (fun k => bind (k_hd k (stars 0 (T_IDENTIFIER x)) (D_T ct)) (fun r =>
      bind (modify (set_ov_asn (fun o => (al, r) :: o))) (fun _ => bind (k_ev k (T_ASSIGN al (stars 0 (T_IDENTIFIER x)) (syntax e))) (fun _ => ret r)))) (after_tick E s) r ->
    lim E go s r) by (intros r; exact (lim_init_declarator E al 0 x (syntax e) (D_T ct) s r I Hp)).
  cbn [stars] in Hdd.
  pose proof (not_in_declares _ _ Hx) as Hnd.
  assert (Hres : is_NULL (resolve_id x (c_idmap c)) = true).
  { apply is_NULL_spec. destruct (resolve_id x (c_idmap c)) eqn:Hr; auto; exfalso; apply Hnd, declares_resolve; congruence. }
  destruct (lim_var E 0 x (D_T ct) (after_tick E s) c cs Hs I) as [H|H].
  { left. eexists. apply Hdd. apply (lim_bind_fail E _ _ _ _ _ _ H). reflexivity. }
  rewrite Hres in H. destruct H as (a & s1 & H & Hd). right. cbn [stars pointer_to] in *.
  apply (declared_gc_l E s) in Hd; [|apply gc_only_tick].
  exists a, s1. split; [exact Hd|]. cbv zeta.
  set (s2 := set_ov_asn (fun o => (al, T_IDENTIFIER x) :: o) s1) in *.
  assert (Hp2 : plain s2 al (T_IDENTIFIER x)) by (right; cbn; rewrite Z.eqb_refl; reflexivity).
  assert (Hm2 : means s2 x (T_LIVE_VAR (D_T ct) a false 0)) by (apply (declared_means E s x (D_T ct) a s1 c cs Hs Hx Hd)).
  assert (Hs2 : storage E s2 a (width ct)).
  { destruct Hd as [(_ & (S & _) & _) _]. eapply storage_sub; [exact S|lia|]. destruct ct; cbn; lia. }
  pose proof (assign_expr E rho e s2 al x ct a false 0 Hp2 Hm2 Hi Hs2 He) as Ha.
  assert (Hg2 : forall y, mentions e y -> number E s2 (lookup s2 y) (rho y)).
  { intros y Hy. apply number_set_ov_asn. change (lookup s2 y) with (lookup s1 y).
    rewrite (declared_lookup E s x (D_T ct) a s1 c cs y Hs Hd) by (intros ->; contradiction).
    eapply declared_number; eauto. }
  specialize (Ha Hg2). destruct (denote rho e) as [v|].
  - destruct Ha as (s' & w & R & W & C & V & M & _). exists s', w. split; [|auto].
    apply Hdd. eapply lim_bind; [exact H|]. eapply lim_bind; [apply lim_const; reflexivity|].
    eapply lim_bind; [apply lim_ev; exact R|]. apply lim_const. reflexivity.
  - destruct Ha as (s' & R & G). exists s'. apply Hdd. eapply lim_bind; [exact H|].
    eapply lim_bind; [apply lim_const; reflexivity|].
    apply (lim_bind_fail E _ _ _ _ _ (Abort s') (lim_ev E _ _ _ R)). reflexivity.
Qed.

Lemma number_scope name s r z : number E s r z -> number E (open_scope E name s) r z.
Proof.
  assert (H : forall a n, storage E s a n -> storage E (open_scope E name s) a n)
    by (intros a n Hs; exact (storage_tick E s a n Hs)).
  intros Hn. inversion Hn as [|c a arr n Hi Hs|t a arr n Hs]; subst; [constructor| |].
  - change (value_at s c a) with (value_at (open_scope E name s) c a). constructor; auto.
  - change (mem s) with (mem (open_scope E name s)). constructor; auto.
Qed.

Theorem static_first rho e l specs ct al x s c cs : zfind l (statics s) = None -> names_type specs (D_T ct) ->
  integer_type ct = true -> In T_STATIC specs -> ~ In T_TYPEDEF specs -> ~ In T_EXTERN specs ->
  stack s = c :: cs -> ~ In x (map fst (c_idmap c)) -> plain s al (T_IDENTIFIER x) -> computed e -> ~ mentions e x ->
  (forall y, mentions e y -> number E s (lookup s y) (rho y)) -> e_rooted E l = true ->
  let d := T_DECL l (CHAIN_HEAD (map T_SPEC specs)) (CHAIN_HEAD [T_ASSIGN al (T_IDENTIFIER x) (syntax e)]) in
  out_of_memory E s d 16 \/
  match denote rho e with
  | Some v => exists a s' w, runs E s d (Ok (T_IDENTIFIER x) s') /\ static_made E s l x (D_T ct) a s' /\
      static_entry s' l [(x, T_LIVE_VAR (D_T ct) a false 0)] [a] /\ means s' x (T_LIVE_VAR (D_T ct) a false 0) /\
      clipped v w /\ wraps ct w (value_at s' ct a)
  | None => exists s', runs E s d (Abort s')
  end.
Proof.
  intros Hl Hn Hi Hst Hty Hex Hs Hx Hp He Hm Hg Hro d.
  set (dd := CHAIN_HEAD [T_ASSIGN al (T_IDENTIFIER x) (syntax e)]) in *.
  set (s0 := open_scope E "Static declaration" (after_tick E s)).
  set (c0 := mkctx (fresh s) "Static declaration" [] [] [] [] NULL false false).
  assert (Hs0 : stack s0 = c0 :: c :: cs) by (cbn; rewrite Hs; reflexivity).
  (* the part before the declarators *)
  assert (Hpre : forall r, lim E (fun k => bind (each_decl (fun d => k_hd k d (D_T ct)) dd) (fun r =>
      bind top (fun c => bind (modify (set_statics (fun m => (l, (c_idmap c, c_allocs c)) :: m))) (fun _ =>
      bind (tick E) (fun _ => bind pop_ctx (fun _ => bind (k_ev k d) (fun _ => ret r))))))) s0 r ->
    lim E (fun k => evaluate_1 E k d) s r).
  { intros r [n H]. exists n. intros j Hj. rewrite <- (H j Hj). unfold d at 1. cbn [evaluate_1]. rewrite Hl.
    unfold eval_decl, resolve_specs. unfold bind at 1. rewrite (bind_eq _ _ _ _ _ _ _ (tick_eq E s)).
    rewrite (proj2 (SpecTypesFacts.resolve_type specs (D_T ct)) Hn). unfold ret at 1. unfold bind at 1, get. cbn [is_NULL dd].
    cbn [is_T_IDENTIFIER is_T_DECL_COMPOUND is_T_ENUMERATOR view_comp orb].
    unfold bind at 1, ret at 1.
    assert (HT : chain_has T_TYPEDEF (CHAIN_HEAD (map T_SPEC specs)) = false).
    { unfold chain_has. destruct (existsb _ _) eqn:Hz; [|reflexivity]. exfalso. apply Hty.
      apply existsb_exists in Hz as (y & Hin & Hy). apply in_map_iff in Hin as (q & <- & Hin). destruct q; try discriminate Hy. exact Hin. }
    assert (HX : chain_has T_EXTERN (CHAIN_HEAD (map T_SPEC specs)) = false).
    { unfold chain_has. destruct (existsb _ _) eqn:Hz; [|reflexivity]. exfalso. apply Hex.
      apply existsb_exists in Hz as (y & Hin & Hy). apply in_map_iff in Hin as (q & <- & Hin). destruct q; try discriminate Hy. exact Hin. }
    assert (HS : chain_has T_STATIC (CHAIN_HEAD (map T_SPEC specs)) = true).
    { unfold chain_has. apply existsb_exists. exists (T_SPEC T_STATIC). split; [|reflexivity]. apply in_map, Hst. }
    rewrite HT, HX, HS. unfold handle_static_decl. change (static_fn (chain_elems dd)) with (@None tree). cbv iota.
    rewrite (bind_eq _ _ _ _ _ _ _ (push_open E "Static declaration" (after_tick E s))). reflexivity. }
  destruct (init_each rho e ct al x s0 c0 (c :: cs)) as [(s' & H)|(a & s1 & D & H)]; auto.
  { intros y Hy. change (lookup s0 y) with (resolve_maps y ([] :: map c_idmap (scope_ctxs s))).
    rewrite resolve_maps_cons. cbn [resolve_id is_NULL]. change (resolve_maps y (map c_idmap (scope_ctxs s))) with (lookup s y).
    apply number_scope. destruct (Hg y Hy) as [z|q b arr n Q1 Q2|t b arr n Q1].
    - constructor.
    - change (value_at s q b) with (value_at (after_tick E s) q b). constructor; [exact Q1|apply storage_tick, Q2].
    - change (mem s) with (mem (after_tick E s)). constructor. apply storage_tick, Q1. }
  { left. apply (oom E _ _ _ s'). apply lim_runs; [discriminate|]. apply Hpre. apply (lim_bind_fail E _ _ _ _ _ _ H). reflexivity. }
  right. cbv zeta in H. destruct (denote rho e) as [v|].
  2:{ destruct H as (s' & H). exists s'. apply lim_runs; [discriminate|]. apply Hpre.
      apply (lim_bind_fail E _ _ _ _ _ (Abort s') H). reflexivity. }
  destruct H as (s2 & w & H & [W1 [W2 W3]] & C & V).
  set (m := [(x, T_LIVE_VAR (D_T ct) a false 0)]) in *.
  destruct D as [((q & qs & T1 & T2) & NO & R) HM].
  rewrite Hs0 in T1. injection T1 as <- <-.
  assert (Hs2 : stack s2 = scope_with c0 m a :: c :: cs) by (rewrite (sg_stack _ _ W2); exact T2).
  set (s3 := set_statics (fun o => (l, (m, [a])) :: o) s2).
  set (s4 := after_tick E s3). set (s5 := set_stack (fun _ => c :: cs) s4).
  assert (Hs5 : stack s5 = c :: cs) by reflexivity.
  assert (Hl5 : static_entry s5 l m [a]) by (unfold static_entry; cbn; rewrite Z.eqb_refl; reflexivity).
  destruct (static_again l m [a] (CHAIN_HEAD (map T_SPEC specs)) dd s5 c cs Hl5 Hs5) as (s' & Hagain & HA).
  { repeat constructor. intros []. }
  { intros y [<-|[]]. exact Hx. }
  fold d in Hagain. cbn in Hagain.
  assert (Hw : 0 < width ct <= 16) by (destruct ct; cbn; lia).
  (* storage *)
  destruct NO as (S & P1 & P2 & Hold).
  assert (Hk : forall b n, 0 < n -> storage E s b n -> storage E s2 b n /\ (b + n <= a \/ a + 16 <= b)).
  { intros b n Hn' Hb. destruct (Hold b n Hn') as [B1 B2]; [exact (storage_tick E (after_tick E s) b n (storage_tick E s b n Hb))|].
    split; [|exact B2]. apply W3. exact B1. }
  assert (Hroot2 : roots E s2 = a :: flat_map c_allocs (c :: cs) ++ match incl s2 with Some c => c_allocs c | None => [] end ++
     flat_map (fun e => if e_rooted E (fst e) then snd (snd e) else []) (statics s2)).
  { unfold roots. rewrite Hs2. reflexivity. }
  assert (Hr3 : forall b, In b (roots E s2) -> In b (roots E s3)).
  { intros b. unfold roots. cbn [stack incl statics s3 set_statics flat_map fst snd]. rewrite Hro. rewrite !in_app_iff. tauto. }
  assert (Hr5 : forall b, In b (roots E s2) -> In b (roots E s5)).
  { intros b. rewrite Hroot2. unfold roots. unfold s5, s4, s3.
    cbn [stack incl statics set_stack after_tick set_ticks set_closures set_blocks set_statics flat_map fst snd].
    rewrite Hro. cbn [In]. rewrite !in_app_iff. cbn [In]. tauto. }
  assert (H25 : forall b n, storage E s2 b n -> storage E s5 b n).
  { intros b n (bl & B1 & B2 & B3 & B4).
    assert (H3 : storage E s3 b n) by (exists bl; repeat (split; [assumption|]); destruct B4 as [B4|B4]; auto).
    exists bl. split; [|split; [exact B2|split; [exact B3|destruct B4; auto]]].
    change (blocks s5) with (blocks (after_tick E s3)). destruct B4 as [B4|B4].
    - cbn. apply filter_In. split; [exact B1|]. unfold collected. rewrite B4. reflexivity.
    - apply in_tick; [exact B1|]. apply Hr3, B4. }
  destruct HA as ((c1 & cs1 & A1 & A2) & A3 & A4 & A5). rewrite Hs5 in A1. injection A1 as <- <-.
  exists a, s', w. split; [|split; [|split; [|split; [|split; [exact C|]]]]].
  - apply lim_runs; [discriminate|]. apply Hpre. eapply lim_bind; [exact H|].
    eapply lim_bind; [apply lim_const; intros _; unfold top; rewrite Hs2; reflexivity|].
    eapply lim_bind; [apply lim_const; intros _; reflexivity|].
    eapply lim_bind; [apply lim_const; intros _; apply tick_eq|].
    eapply (lim_bind E _ _ (fun _ => pop_ctx) _ _ tt s5); [apply lim_const; intros _|].
    + unfold pop_ctx. cbn [stack after_tick set_ticks set_closures set_blocks set_statics]. rewrite Hs2. reflexivity.
    + eapply lim_bind; [apply lim_ev; exact Hagain|]. apply lim_const. reflexivity.
  - split; [exists c, cs; auto|]. destruct A4 as (F1 & F2 & F3 & F4 & F5 & F6 & F7 & F8 & F9).
    destruct R as (R1 & R2 & R3 & R4 & R5 & R6 & R7 & R8 & R9). destruct W2. cbn in sg_mem, sg_stack, sg_incl, sg_includes, sg_ov_ret, sg_ov_asn, sg_statics, sg_comps, sg_trace, sg_breaks.
    cbn in R1, R2, R3, R4, R5, R6, R8, R9. cbn in F1, F2, F3, F4, F5, F6, F8, F9. cbn in HM.
    split; [rewrite F5; f_equal; congruence|].
    split; [split; [apply A5, H25, W3; exact S|split; [exact P1|split; [exact P2|]]]|].
    { intros b n Hn' Hb. destruct (Hk b n Hn' Hb) as [K1 K2]. split; [apply A5, H25, K1|exact K2]. }
    split; [|repeat split; congruence].
    intros y Hy. rewrite A3. change (mem s5 y) with (mem s2 y). rewrite W1 by lia. change (mem s1 y = mem s y). rewrite HM. reflexivity.
  - unfold static_entry. destruct A4 as (_ & _ & _ & _ & F5 & _). rewrite F5. exact Hl5.
  - apply means_lookup; [discriminate|]. unfold lookup, scope_ctxs. rewrite A2. cbn [app map scope_names c_idmap].
    rewrite resolve_maps_cons. unfold m. rewrite resolve_id_app_r by exact Hx. reflexivity.
  - rewrite (value_at_mem s2 s'); [exact V|]. rewrite A3. reflexivity.
Qed.

End Static.
