(** Proofs about objects of structure and union types. *)
From Coq Require Import ZArith List String Bool Lia.
From Verif Require Import CInt CIntFacts Tree SpecResolver State Eval StepsFacts EvalInv SpecScope ScopeFacts SpecRun StuckFacts RunFacts RunRules
  SpecExpr ExprFacts SpecControl SpecStmt ControlFacts CallFacts SpecNames NameFacts SpecTypes SpecTypesFacts SpecVars VarFacts SpecCalls SpecPtr PtrFacts
  SpecEnum EnumFacts SpecStruct StructFacts.
Import ListNotations.
Local Open Scope Z_scope.
Local Open Scope list_scope.

Lemma unsigned_at_pos m a n : 0 <= unsigned_at m a n.
Proof. rewrite unsigned_at_load. apply le_load_bound. Qed.

(** ** Places *)

Lemma placed_inside o fs ps e : placed o fs ps e -> Forall (fun f => 0 <= f_size f) fs -> 0 <= o -> inside e fs ps.
Proof.
  intros H. induction H as [o|o f fs p ps e (H1 & _) H IH]; intros Hf Ho; [constructor|]. inversion Hf; subst.
  assert (He := placed_end _ _ _ _ H H4). constructor; [lia|]. apply IH; auto. lia.
Qed.

Lemma placed_from o fs ps e : placed o fs ps e -> Forall (fun f => 0 <= f_size f) fs -> Forall (fun p => o <= p) ps.
Proof.
  intros H. induction H as [o|o f fs p ps e (H1 & _) H IH]; intros Hf; constructor; auto. inversion Hf; subst.
  eapply Forall_impl; [|apply IH; auto]. cbn. intros a Ha. lia.
Qed.

(** The places are in the order of the declaration. *)
Lemma placed_order o fs ps e : placed o fs ps e -> Forall (fun f => 0 <= f_size f) fs ->
  ForallOrdPairs (fun m m' => snd m + f_size (fst m) <= snd m') (combine fs ps).
Proof.
  intros H. induction H as [o|o f fs p ps e (H1 & _) H IH]; intros Hf; cbn [combine]; constructor; inversion Hf; subst; auto.
  assert (Hp := placed_from _ _ _ _ H H4). rewrite Forall_forall in *. intros [f' p'] Hin. cbn [fst snd]. apply Hp.
  eapply in_combine_r; eauto.
Qed.

Lemma ordered_apart fs ps : ForallOrdPairs (fun m m' => snd m + f_size (fst m) <= snd m') (combine fs ps) -> apart fs ps.
Proof.
  unfold apart. generalize (combine fs ps). intros l H. induction H; constructor; auto. eapply Forall_impl; [|exact H]. cbn. auto.
Qed.

Lemma multiple_exists a o : 0 < a -> first_multiple a o ((o + a - 1) / a * a).
Proof.
  intros Ha. pose proof (Z.div_mod (o + a - 1) a ltac:(lia)) as D. pose proof (Z.mod_pos_bound (o + a - 1) a Ha) as B.
  split; [|split].
  - nia.
  - eexists. reflexivity.
  - intros q Hq (k & ->). apply Z.mul_le_mono_nonneg_r; [lia|]. assert (H : (o + a - 1) / a < k + 1) by (apply Z.div_lt_upper_bound; lia). lia.
Qed.

Lemma placed_exists fs : Forall (fun f => 0 < f_align f) fs -> forall o, exists ps e, placed o fs ps e.
Proof.
  induction fs as [|f fs IH]; intros Hf o; [exists [], o; constructor|]. inversion Hf; subst.
  destruct (IH H2 ((o + f_align f - 1) / f_align f * f_align f + f_size f)) as (ps & e & H).
  eexists (_ :: ps), e. econstructor; [apply multiple_exists; auto|exact H].
Qed.

Lemma placed_unique o fs ps e : placed o fs ps e -> forall ps' e', placed o fs ps' e' -> ps' = ps /\ e' = e.
Proof.
  induction 1 as [o|o f fs p ps e H1 H IH]; intros ps' e' H'; inversion H' as [|? ? ? p' ps1 ? G1 G2]; subst; [auto|].
  assert (p' = p) by (eapply first_unique; eauto). subst. destruct (IH _ _ G2) as [-> ->]. auto.
Qed.

(** Padding: fewer bytes than the alignment. *)
Lemma multiple_gap a o p : 0 < a -> first_multiple a o p -> p < o + a.
Proof.
  intros Ha H. assert (p = (o + a - 1) / a * a) as -> by (eapply first_unique; [exact H|apply multiple_exists, Ha]).
  pose proof (Z.div_mod (o + a - 1) a ltac:(lia)). pose proof (Z.mod_pos_bound (o + a - 1) a Ha). nia.
Qed.

Lemma inside_unions fs : Forall (fun f => 0 <= f_size f) fs -> inside (largest fs) fs (map (fun _ => 0) fs).
Proof.
  intros H. assert (Hx : forall l, largest fs <= l -> inside l fs (map (fun _ => 0) fs)); [|apply Hx; lia].
  induction H as [|f fs H1 H IH]; intros l Hl; [constructor|]. unfold largest in *. cbn [map fold_right] in *. constructor; [lia|]. apply IH. lia.
Qed.

(** ** Members *)

Section Objects.
Variable E : env.

Lemma layout_inside k fs ps size : Forall (fun f => 0 <= f_size f) fs -> layout_result k fs ps size -> inside size fs ps.
Proof.
  intros Hf H. destruct k; cbn in H.
  - destruct H as [H _]. eapply placed_inside; eauto. lia.
  - destruct H as (-> & -> & _). apply inside_unions, Hf.
Qed.

Lemma table_names s base s' fs ps tbl : member_table E s base s' fs ps tbl -> map fst tbl = map f_name fs.
Proof. induction 1 as [|f p m fs ps ms [H1 _] H IH]; [reflexivity|]. cbn [map]. congruence. Qed.

Lemma table_entry s base s' fs ps tbl f p : member_table E s base s' fs ps tbl -> NoDup (map f_name fs) -> In (f, p) (combine fs ps) ->
  member_entry E s base f p (f_name f, resolve_id (f_name f) tbl) s'.
Proof.
  induction 1 as [|f0 p0 m fs ps ms H1 H IH]; intros Hn Hin; [destruct Hin|]. cbn [map combine] in *. inversion Hn; subst.
  destruct m as [y v]. assert (Hy : y = f_name f0) by apply H1. subst y. cbn [resolve_id]. destruct Hin as [Hin|Hin].
  - injection Hin as -> ->. rewrite String.eqb_refl. exact H1.
  - assert (Hne : f_name f0 <> f_name f).
    { intros He. apply H3. rewrite He. apply in_map. eapply in_combine_l; eauto. }
    rewrite (proj2 (String.eqb_neq _ _)) by congruence. apply IH; auto.
Qed.

Lemma table_unknown s base s' fs ps tbl y : member_table E s base s' fs ps tbl -> ~ In y (map f_name fs) -> resolve_id y tbl = NULL.
Proof.
  intros H. rewrite <- (table_names _ _ _ _ _ _ H). clear. induction tbl as [|[z v] tbl IH]; intros Hn; [reflexivity|].
  cbn [map resolve_id] in *. rewrite (proj2 (String.eqb_neq _ _)) by (intros ->; apply Hn; left; reflexivity). apply IH. intros ?. apply Hn. right. auto.
Qed.

(** The operator [.]. *)
Lemma dot s e m t tbl base s1 : runs E s e (Ok (T_LIVE_COMPOUND t tbl base) s1) ->
  runs E s (T_COMP_ACCESS e (T_IDENTIFIER m)) (Ok (resolve_id m tbl) s1).
Proof.
  intros H. apply lim_runs; [discriminate|]. cbn [evaluate_1]. unfold eval_comp_access.
  eapply lim_bind; [apply lim_ev, H|]. apply lim_const. reflexivity.
Qed.

Lemma access s x m t tbl base : means s x (T_LIVE_COMPOUND t tbl base) ->
  runs E s (T_COMP_ACCESS (T_IDENTIFIER x) (T_IDENTIFIER m)) (Ok (resolve_id m tbl) s).
Proof. intros H. apply (dot s (T_IDENTIFIER x) m t tbl base). apply (proj2 (innermost _ _ _ _ _)). auto. Qed.

Lemma apart_members fs ps f p f' p' : apart fs ps -> In (f, p) (combine fs ps) -> In (f', p') (combine fs ps) -> f_name f' <> f_name f ->
  p + f_size f <= p' \/ p' + f_size f' <= p.
Proof.
  unfold apart. intros H H1 H2 Hn.
  destruct (ForallOrdPairs_In H _ _ H1 H2) as [He|[H'|H']]; cbn [fst snd] in *; [injection He as -> ->; congruence|tauto|tauto].
Qed.

Lemma inside_member size fs ps f p : inside size fs ps -> In (f, p) (combine fs ps) -> 0 <= p /\ p + f_size f <= size.
Proof.
  intros H. induction H as [|f0 p0 fs ps H1 H IH]; intros Hin; [destruct Hin|]. destruct Hin as [Hin|Hin]; [injection Hin as -> ->; exact H1|auto].
Qed.

(** The tables of members survive a store into the object. *)
Lemma table_store s1 base size s s' fs ps tbl : member_table E s1 base s fs ps tbl -> storage E s1 base size -> 0 < size ->
  (forall b, storage E s b 1 -> b < base \/ base + size <= b -> mem s' b = mem s b) ->
  (forall b m, storage E s b m -> storage E s' b m) -> member_table E s1 base s' fs ps tbl.
Proof.
  intros H Hb Hz Hm Hs. induction H as [|f p m fs ps ms [H1 H2] H IH]; constructor; auto. split; [exact H1|].
  destruct (snd f); [|exact H2]. destruct H2 as (q & H2 & (O1 & O2 & O3 & O4) & H4). exists q. split; [exact H2|]. split.
  - split; [auto|]. split; [exact O2|]. split; [exact O3|]. intros a' n' Hn Ha. destruct (O4 a' n' Hn Ha). auto.
  - rewrite <- H4. apply unsigned_at_same. intros b Hbq. apply Hm.
    + eapply storage_sub; [exact O1|lia|lia].
    + destruct (O4 base size Hz Hb) as [_ O5]. lia.
Qed.

(** A store into a member, however the object is reached. *)
Lemma member_store l lhs rho e v c m p n s s0 s1 base size fs ps tbl : plain s l lhs ->
  runs E s lhs (Ok (T_LIVE_VAR (D_T c) (base + p) false n) s0) -> only_new E s [] s0 ->
  storage E s1 base size -> storage E s base size -> member_table E s1 base s fs ps tbl -> inside size fs ps ->
  In ((m, D_T c, None), p) (combine fs ps) -> integer_type c = true -> reads E s rho e -> computed e -> denote rho e = Some v ->
  exists s' w, runs E s (T_ASSIGN l lhs (syntax e)) (Ok (T_INTEGER v) s') /\ clipped v w /\ wraps c w (value_at s' c (base + p)) /\
    (forall b, storage E s b 1 -> b < base + p \/ base + p + width c <= b -> mem s' b = mem s b) /\
    (forall b m, storage E s b m -> storage E s' b m) /\ (forall y, lookup s' y = lookup s y) /\
    member_table E s1 base s' fs ps tbl.
Proof.
  intros Hp Hl N Hb1 Hb Ht Hi Hin Hc Hr He Hd. destruct (inside_member _ _ _ _ _ Hi Hin) as [I1 I2].
  change (f_size (m, D_T c, None)) with (width c) in I2. assert (0 < width c) by (destruct c; cbn; lia).
  destruct (store_through E l lhs rho e v c (base + p) n s s0 Hp Hl N Hc) as (s' & w & R1 & R2 & R3 & R4 & R5 & R6); auto.
  { eapply storage_sub; [exact Hb|lia|lia]. }
  exists s', w. do 6 (split; [assumption|]). eapply table_store; eauto; [lia|]. intros b Hb' Ho. apply R4; auto. lia.
Qed.

(** ** Declarations of objects *)

Lemma object_variable l lc specs x t k mbs fs ps size rho s c cs : zfind l (statics s) = None -> spec_type s lc specs t -> no_class specs ->
  stack s = c :: cs -> ~ In x (map fst (c_idmap c)) -> complete s t k mbs ps size -> Forall2 (describes E s rho lc) mbs fs -> inside size fs ps ->
  let d := T_DECL l (CHAIN_HEAD specs) (CHAIN_HEAD [T_IDENTIFIER x]) in
  (exists n, out_of_memory E s d n) \/
  exists v s', runs E s d (Ok (T_IDENTIFIER x) s') /\ only_new E s [(x, v)] s' /\ object_made E s t fs ps size v s'.
Proof.
  intros Hl Ht Hc Hs Hx HC Hd Hi d. assert (Hs0 : stack s <> []) by congruence.
  pose proof (tick_new E s Hs0) as N1. set (s1 := after_tick E s) in *.
  assert (Hx1 : forall c cs, stack s1 = c :: cs -> resolve_id x (c_idmap c) = NULL).
  { intros c0 cs0 Es. assert (stack s1 = c :: cs) by exact Hs. rewrite H in Es. injection Es as <- <-.
    apply not_in_declares in Hx. destruct (resolve_id x (c_idmap c)) eqn:Hz; auto; exfalso; apply Hx, declares_resolve; congruence. }
  assert (H0 : forall r, r <> Fuel -> lim E (fun kn => k_hd kn (T_IDENTIFIER x) t) s1 r -> runs E s d r).
  { intros r Hr H. apply lim_runs; [exact Hr|]. unfold d. eapply lim_decl_spec; eauto. 
    cbn [each_decl foldM]. apply (lim_ext E _ _ (fun kn => k_hd kn (T_IDENTIFIER x) t)); [|exact H].
    intros kn. unfold bind, ret. destruct (k_hd kn _ t _); reflexivity. }
  destruct (one_struct E x t k mbs fs ps size rho lc s1) as [(n & s' & H)|(v & s' & H & N & O)].
  - eapply complete_rest; [apply N1|exact HC].
  - eapply describes_all_sees; [apply sees_new, N1|exact Hd].
  - exact Hi.
  - exact Hs0.
  - exact Hx1.
  - left. exists n. eapply oom. apply H0; [discriminate|exact H].
  - right. exists v, s'. split; [apply H0; [discriminate|exact H]|]. split; [eapply only_new_trans0; eauto|eapply object_earlier; eauto].
Qed.

(** ** Pointers to objects *)

Lemma arrow s e m t a arr n s1 k mbs fs ps size rho lc : let base := unsigned_at (mem s1) a 8 in
  runs E s e (Ok (T_LIVE_VAR (D_T_PTR t) a arr n) s1) -> stack s1 <> [] -> storage E s1 a 8 ->
  complete s1 t k mbs ps size -> Forall2 (describes E s1 rho lc) mbs fs -> inside size fs ps -> base + size < 2 ^ 64 ->
  let d := T_COMP_ACCESS (T_DEREF e) (T_IDENTIFIER m) in
  out_of_memory E s d 16 \/
  exists tbl s2, runs E s d (Ok (resolve_id m tbl) s2) /\ only_new E s1 [] s2 /\ member_table E s1 base s2 fs ps tbl.
Proof.
  intros base H Hs Ha HC Hd Hi Hz d. pose proof (describes_sizes E _ _ _ _ _ Hd) as Hf.
  assert (Hb : 0 <= base) by apply unsigned_at_pos.
  assert (B : Forall (fun p => 0 <= base + p < 2 ^ 64) ps /\ Forall (fun f => f_size f < 2 ^ 64) fs).
  { clear - Hi Hf Hb Hz. induction Hi as [|f p fs ps [H1 H2] H IH]; [split; constructor|]. inversion Hf; subst. destruct (IH H5). split; constructor; auto; lia. }
  destruct B as [B1 B2].
  pose proof (y_inst E t k mbs fs ps size base rho lc s1 (eq 16) eq_refl HC Hd B1 B2) as Y.
  apply y_k_inst in Y.
  assert (H0 : forall r, lim E (fun kn => k_inst kn t base) s1 r -> lim E (fun k => evaluate_1 E k (T_DEREF e)) s r).
  { intros r Hr. cbn [evaluate_1]. unfold eval_deref. eapply lim_bind; [apply lim_ev, H|].
    eapply lim_ext; [|exact Hr]. intros kn. cbn beta. unfold bind at 1.
    rewrite load_valid by (eapply storage_valid; eauto). unfold bind at 1, get. unfold is_T_DECL_COMPOUND.
    destruct HC as (c & Hv & _). rewrite Hv. reflexivity. }
  destruct (Y Hs) as [(n' & s' & <- & H')|(v & s' & H' & N & (tbl & -> & Ht))].
  - left. eapply oom. apply lim_runs; [discriminate|]. unfold d. cbn [evaluate_1]. unfold eval_comp_access.
    apply (lim_bind_fail E _ _ _ _ _ (NoMemory 16 s')); [|reflexivity]. apply lim_eval1, H0, H'.
  - right. exists tbl, s'. split; [|split; [exact N|exact Ht]]. apply (dot s (T_DEREF e) m t tbl base). apply lim_runs; [discriminate|]. apply H0, H'.
Qed.

(** ** Unions *)

Lemma unsigned_prefix m n : forall k a, (k <= n)%nat -> unsigned_at m a k = unsigned_at m a n mod 2 ^ (8 * Z.of_nat k).
Proof.
  induction n as [|n IH]; intros k a Hk.
  - replace k with O by lia. reflexivity.
  - destruct k as [|k]; [cbn [unsigned_at]; rewrite Z.mod_1_r; reflexivity|]. cbn [unsigned_at]. rewrite (IH k (a + 1)) by lia.
    replace (8 * Z.of_nat (S k)) with (8 + 8 * Z.of_nat k) by lia. rewrite Z.pow_add_r by lia. change (2 ^ 8) with 256.
    rewrite Z.rem_mul_r by lia. 
    rewrite (Z.mul_comm 256 (unsigned_at m (a + 1) n)), Z.mod_add, Zmod_mod by lia.
    rewrite Z.div_add by lia. rewrite (Z.div_small (m a mod 256)) by (apply Z.mod_pos_bound; lia). rewrite Z.add_0_l. reflexivity.
Qed.

Lemma value_wraps s c a z : integer_type c = true -> (exists q, unsigned_at (mem s) a (Z.to_nat (width c)) = z + q * 2 ^ (8 * width c)) ->
  wraps c z (value_at s c a).
Proof.
  intros Hc (q & Hq). unfold wraps, value_at. set (u := unsigned_at (mem s) a (Z.to_nat (width c))) in *.
  assert (B : 0 <= u < 2 ^ (8 * width c)).
  { unfold u. rewrite unsigned_at_load. pose proof (le_load_bound (mem s) a (Z.to_nat (width c))) as B.
    replace (2 ^ (8 * width c)) with (256 ^ Z.of_nat (Z.to_nat (width c))) by (destruct c; reflexivity). exact B. }
  assert (P : 2 ^ (8 * width c) = 2 * 2 ^ (8 * width c - 1)) by (rewrite <- Z.pow_succ_r by (destruct c; cbn; lia); f_equal; lia).
  cbv zeta. destruct (signed c) eqn:Es; cbn [andb].
  - destruct (Z.leb_spec (2 ^ (8 * width c - 1)) u); split; try lia; [exists (q - 1); lia|exists q; lia].
  - split; [exists q; lia|lia].
Qed.

Lemma wraps_narrow s c c' a w : integer_type c = true -> integer_type c' = true -> width c' <= width c -> wraps c w (value_at s c a) ->
  wraps c' w (value_at s c' a).
Proof.
  intros Hc Hc' Hw [(q & Hq) _]. apply value_wraps; [exact Hc'|].
  assert (P1 : 0 < width c') by (destruct c'; cbn; lia).
  assert (B : exists q0, unsigned_at (mem s) a (Z.to_nat (width c)) = w + q0 * 2 ^ (8 * width c)).
  { unfold value_at in Hq. cbv zeta in Hq. destruct (_ && _); [exists (q + 1); lia|exists q; lia]. }
  destruct B as (q0 & B). rewrite (unsigned_prefix (mem s) (Z.to_nat (width c))) by lia. rewrite Z2Nat.id by lia. rewrite B.
  set (N := 2 ^ (8 * width c')). assert (HN : 0 < N) by (apply Z.pow_pos_nonneg; lia).
  exists (- ((w + q0 * 2 ^ (8 * width c)) / N) + q0 * 2 ^ (8 * (width c - width c'))).
  rewrite Z.mod_eq by lia. replace (2 ^ (8 * width c)) with (2 ^ (8 * (width c - width c')) * N).
  2: { unfold N. rewrite <- Z.pow_add_r by lia. f_equal. lia. }
  lia.
Qed.

(** ** The declaration as a statement *)

Lemma describes_free s rho l m f : describes E s rho (Some l) m f -> describes E s rho None m f.
Proof.
  intros H. destruct H; constructor; auto; match goal with H : spec_type _ _ _ _ |- _ => destruct H; constructor; auto; discriminate end.
Qed.

Lemma after_declared l k tag gs rho fs s s' : let d := compound_tree l k tag gs in
  only_type E (tagged k tag d s) l s' -> Forall2 (describes E (tagged k tag d s) rho (Some l)) (members gs) fs ->
  Forall2 (describes E s' rho None) (members gs) fs.
Proof.
  intros d T H. apply (describes_all_sees E _ _ _ _ _ _ (only_type_sees E _ _ _ T)) in H.
  induction H; constructor; auto. eapply describes_free; eauto.
Qed.

Lemma tag_declared l k x d s s' c cs : stack s = c :: cs -> tag_free k (Some x) c -> d <> NULL -> only_type E (tagged k (Some x) d s) l s' -> tag_means s' k x d.
Proof.
  intros Hs Hf Hd (A1 & A2 & _). unfold tag_means, visible. rewrite A1, A2. unfold tagged. cbn [set_stack stack]. rewrite Hs. cbn [app].
  exists [], (with_tag k (Some x) d c). eexists. split; [reflexivity|]. split; [intros ? ? []|]. split; [exact Hd|].
  apply entry_resolve; [exact Hd|]. replace (tags k (with_tag k (Some x) d c)) with (tags k c ++ [(x, d)]) by (destruct k; reflexivity).
  apply resolve_id_app_r. exact Hf.
Qed.

Theorem compound_statement l0 w l k tag gs rho fs ps size s c cs : let d := compound_tree l k tag gs in
  let st := T_DECL l0 (CHAIN_HEAD (map T_SPEC w ++ [d])) NULL in
  zfind l0 (statics s) = None -> sane_prefix w -> no_class (map T_SPEC w) ->
  stack s = c :: cs -> zfind l (comps s) = None -> tag_free k tag c -> own_labels s ->
  Forall2 (describes E (tagged k tag d s) rho (Some l)) (members gs) fs -> layout_result k fs ps size ->
  (exists n, out_of_memory E s st n) \/
  exists s', runs E s st (Ok NULL s') /\ only_type E (tagged k tag d s) l s' /\ complete s' d k (members gs) ps size.
Proof.
  intros d st Hl0 Hw Hc Hs Hl Hf Ho Hd Hr. set (s1 := after_tick E s).
  assert (T1 : only_type E (tagged k tag d s) l (tagged k tag d s1)) by (eapply tagged_type; exact Hs).
  assert (H0 : forall r, r <> Fuel -> lim E (fun kn => bind (k_ev kn d) (fun _ => ret NULL)) s1 r -> runs E s st r).
  { intros r Hfu H. apply lim_runs; [exact Hfu|]. unfold st.
    eapply lim_after; [|exact H]. intros kn. cbn [evaluate_1]. rewrite Hl0. unfold eval_decl, resolve_specs. unfold bind at 1. rewrite (bind_eq _ _ _ _ _ _ _ (tick_eq E s)).
    fold s1. unfold d, compound_tree. rewrite (proj1 (resolve_self w _ [] (self_compound l k (tag_tree tag) (CHAIN_HEAD (map group_tree gs)))) Hw).
    fold (compound_tree l k tag gs). fold d. unfold ret at 1. unfold bind at 1, get. cbn [is_NULL].
    assert (Hv : view_comp s1 d = Some (mkcomp k (tag_tree tag) (CHAIN_HEAD (map group_tree gs)) false [] 0 false)).
    { unfold d, compound_tree. cbn. change (comps s1) with (comps s). rewrite Hl. reflexivity. }
    rewrite Hv. change (no_decls (mkcomp k (tag_tree tag) (CHAIN_HEAD (map group_tree gs)) false [] 0 false)) with false. cbv iota.
    assert (Hcl : forall x, In x [T_TYPEDEF; T_EXTERN; T_STATIC] -> chain_has x (CHAIN_HEAD (map T_SPEC w ++ [d])) = false).
    { intros x Hx. destruct (chain_has x (CHAIN_HEAD (map T_SPEC w ++ [d]))) eqn:Hh; auto. exfalso.
      apply self_class in Hh; [|exact Hx]. apply in_app_or in Hh as [Hh|[Hh|[]]]; [exact (Hc x Hx Hh)|discriminate Hh]. }
    unfold bind at 1 2. destruct (k_ev kn d s1) as [t s2| | | | | | | |]; try reflexivity. rewrite !Hcl by (cbn; tauto). reflexivity. }
  destruct (compound_declared E l k tag gs rho fs ps size s1 c cs Hs Hl Hf) as [(n & s' & H)|(s' & H & T & HC)].
  - exact Ho.
  - eapply describes_all_sees; [apply only_type_sees, T1|exact Hd].
  - exact Hr.
  - left. exists n, s'. destruct H as [H Hn]. split; [|exact Hn]. apply H0; [discriminate|].
    apply (lim_bind_fail E _ _ _ _ _ (NoMemory n s')); [apply lim_ev, H|reflexivity].
  - right. exists s'. split; [|split; [eapply only_type_trans; eauto|exact HC]]. apply H0; [discriminate|].
    eapply lim_bind; [apply lim_ev, H|]. apply lim_const. reflexivity.
Qed.

(** ** Combinations *)

Lemma describes_align s rho l m f : describes E s rho l m f -> 0 < f_align f.
Proof. intros H. apply describes_object in H. apply width_range in H. exact (proj1 H). Qed.

Lemma placed_aligned o fs ps e : placed o fs ps e -> Forall2 (fun f p => exists k, p = k * f_align f) fs ps.
Proof. induction 1 as [o|o f fs p ps e (H1 & H2 & _) H IH]; constructor; auto. Qed.

Lemma placed_split o fs ps e : placed o fs ps e -> forall fs1 f fs2 ps1 p ps2, fs = fs1 ++ f :: fs2 -> ps = ps1 ++ p :: ps2 ->
  List.length fs1 = List.length ps1 -> exists o1, placed o fs1 ps1 o1 /\ first_multiple (f_align f) o1 p /\ placed (p + f_size f) fs2 ps2 e.
Proof.
  induction 1 as [o|o f fs p ps e H1 H IH]; intros fs1 f0 fs2 ps1 p0 ps2 Hf Hp Hl; [destruct fs1; discriminate Hf|].
  destruct fs1 as [|g fs1], ps1 as [|q ps1]; try discriminate Hl; cbn [app] in *.
  - injection Hf as -> ->. injection Hp as -> ->. exists o. split; [constructor|auto].
  - injection Hf as -> ->. injection Hp as -> ->. destruct (IH fs1 f0 fs2 ps1 p0 ps2 eq_refl eq_refl ltac:(cbn in Hl; lia)) as (o1 & H2 & H3 & H4).
    exists o1. split; [econstructor; eauto|auto].
Qed.

Lemma layout_facts s rho l ms fs : Forall2 (describes E s rho l) ms fs ->
  exists ps size, placed 0 fs ps size /\ (forall ps' size', placed 0 fs ps' size' -> ps' = ps /\ size' = size) /\
    ForallOrdPairs (fun m m' => snd m + f_size (fst m) <= snd m') (combine fs ps) /\
    inside size fs ps /\
    Forall2 (fun f p => exists k, p = k * f_align f) fs ps /\
    (forall fs1 f fs2 ps1 p ps2, fs = fs1 ++ f :: fs2 -> ps = ps1 ++ p :: ps2 -> List.length fs1 = List.length ps1 ->
       exists o, placed 0 fs1 ps1 o /\ o <= p < o + f_align f) /\
    (forall fs1 f ps1 p, fs = fs1 ++ [f] -> ps = ps1 ++ [p] -> size = p + f_size f).
Proof.
  intros H. pose proof (describes_sizes E _ _ _ _ _ H) as Hf.
  assert (Ha : Forall (fun f => 0 < f_align f) fs) by (clear Hf; induction H; constructor; auto; eapply describes_align; eauto).
  destruct (placed_exists fs Ha 0) as (ps & size & P). exists ps, size. split; [exact P|]. split; [apply placed_unique, P|].
  split; [eapply placed_order; eauto|]. split; [eapply placed_inside; eauto; lia|]. split; [eapply placed_aligned; eauto|]. split.
  - intros fs1 f fs2 ps1 p ps2 Hfs Hps Hl. destruct (placed_split _ _ _ _ P _ _ _ _ _ _ Hfs Hps Hl) as (o & P1 & M & _).
    exists o. split; [exact P1|]. split; [apply M|]. apply multiple_gap; auto. rewrite Forall_forall in Ha. apply Ha. rewrite Hfs. apply in_elt.
  - intros fs1 f ps1 p Hfs Hps. pose proof (placed_length _ _ _ _ P) as Hl. rewrite Hfs, Hps, !app_length in Hl. cbn [List.length] in Hl.
    destruct (placed_split _ _ _ _ P _ _ _ _ _ _ Hfs Hps ltac:(lia)) as (o & _ & _ & P2). inversion P2. reflexivity.
Qed.

Lemma largest_facts s rho l ms fs : Forall2 (describes E s rho l) ms fs ->
  (forall f, In f fs -> f_size f <= largest fs) /\ (fs <> [] -> exists f, In f fs /\ f_size f = largest fs).
Proof.
  intros H. apply describes_sizes in H. unfold largest. split.
  - intros f Hf. induction fs as [|g fs IH]; [destruct Hf|]. inversion H; subst. cbn [map fold_right]. destruct Hf as [-> |Hf]; [lia|]. specialize (IH H3 Hf). lia.
  - intros Hn. induction fs as [|g fs IH]; [congruence|]. inversion H; subst. cbn [map fold_right]. destruct fs as [|g' fs].
    + exists g. split; [left; reflexivity|]. cbn. lia.
    + destruct (IH H3 ltac:(discriminate)) as (f & Hf1 & Hf2).
      destruct (Z.max_spec (f_size g) (fold_right Z.max 0 (map f_size (g' :: fs)))) as [[_ ->]|[_ ->]].
      * exists f. split; [right; exact Hf1|exact Hf2].
      * exists g. split; [left; reflexivity|reflexivity].
Qed.

Lemma dot_store s s1 x m p t tbl base size fs ps rho e v c l : let lhs := T_COMP_ACCESS (T_IDENTIFIER x) (T_IDENTIFIER m) in
  means s x (T_LIVE_COMPOUND t tbl base) -> member_table E s1 base s fs ps tbl -> NoDup (map f_name fs) ->
  stack s <> [] -> storage E s1 base size -> storage E s base size -> inside size fs ps -> apart fs ps ->
  In ((m, D_T c, None), p) (combine fs ps) -> integer_type c = true ->
  plain s l lhs -> reads E s rho e -> computed e -> denote rho e = Some v ->
  exists s' w, runs E s (T_ASSIGN l lhs (syntax e)) (Ok (T_INTEGER v) s') /\ clipped v w /\ wraps c w (value_at s' c (base + p)) /\
    (forall f' p', In (f', p') (combine fs ps) -> f_name f' <> m -> forall b, base + p' <= b < base + p' + f_size f' -> mem s' b = mem s b) /\
    (forall b, storage E s b 1 -> b < base + p \/ base + p + width c <= b -> mem s' b = mem s b) /\
    (forall b m, storage E s b m -> storage E s' b m) /\ (forall y, lookup s' y = lookup s y) /\
    member_table E s1 base s' fs ps tbl.
Proof.
  intros lhs Hm Ht Hn Hs Hb1 Hb Hi Hap Hin Hc Hp Hr He Hd.
  pose proof (access s x m t tbl base Hm) as Ha. pose proof (table_entry _ _ _ _ _ _ _ _ Ht Hn Hin) as [_ He']. cbn [fst snd f_name] in He'. rewrite He' in Ha.
  change (f_type (m, D_T c, None)) with (D_T c) in Ha. fold lhs in Ha.
  destruct (member_store l lhs rho e v c m p 0 s s s1 base size fs ps tbl Hp Ha (only_new_refl E s Hs) Hb1 Hb Ht Hi Hin Hc Hr He Hd)
    as (s' & w & R1 & R2 & R3 & R4 & R5 & R6 & R7).
  exists s', w. do 3 (split; [assumption|]). split; [|auto].
  intros f' p' Hin' Hne b Hb'. destruct (inside_member _ _ _ _ _ Hi Hin') as [I1 I2]. apply R4; [eapply storage_sub; [exact Hb|lia|lia]|].
  pose proof (apart_members fs ps (m, D_T c, None) p f' p' Hap Hin Hin' Hne) as Hx. change (f_size (m, D_T c, None)) with (width c) in Hx. lia.
Qed.

Lemma zeros_combine fs (f : field) : In f fs -> In (f, 0) (combine fs (map (fun _ => 0) fs)).
Proof. induction fs as [|g fs IH]; intros Hi; [destruct Hi|]. cbn [map combine]. destruct Hi as [-> |Hi]; [left; reflexivity|right; auto]. Qed.

Lemma union_shared s s1 x m m' t tbl base size fs rho e v c c' l : let lhs := T_COMP_ACCESS (T_IDENTIFIER x) (T_IDENTIFIER m) in
  means s x (T_LIVE_COMPOUND t tbl base) -> member_table E s1 base s fs (map (fun _ => 0) fs) tbl -> NoDup (map f_name fs) ->
  stack s <> [] -> storage E s1 base size -> storage E s base size -> inside size fs (map (fun _ => 0) fs) ->
  In (m, D_T c, None) fs -> In (m', D_T c', None) fs -> integer_type c = true -> integer_type c' = true -> width c' <= width c ->
  plain s l lhs -> reads E s rho e -> computed e -> denote rho e = Some v ->
  exists s' w, runs E s (T_ASSIGN l lhs (syntax e)) (Ok (T_INTEGER v) s') /\ clipped v w /\
    runs E s' (T_COMP_ACCESS (T_IDENTIFIER x) (T_IDENTIFIER m')) (Ok (T_LIVE_VAR (D_T c') base false 0) s') /\
    wraps c' w (value_at s' c' base).
Proof.
  intros lhs Hm Ht Hn Hs Hb1 Hb Hi Hin Hin' Hc Hc' Hw Hp Hr He Hd. apply zeros_combine in Hin, Hin'.
  pose proof (access s x m t tbl base Hm) as Ha. pose proof (table_entry _ _ _ _ _ _ _ _ Ht Hn Hin) as [_ He']. cbn [fst snd f_name] in He'. rewrite He' in Ha.
  change (f_type (m, D_T c, None)) with (D_T c) in Ha. fold lhs in Ha.
  destruct (member_store l lhs rho e v c m 0 0 s s s1 base size fs _ tbl Hp Ha (only_new_refl E s Hs) Hb1 Hb Ht Hi Hin Hc Hr He Hd)
    as (s' & w & R1 & R2 & R3 & R4 & R5 & R6 & R7).
  exists s', w. split; [exact R1|]. split; [exact R2|]. rewrite Z.add_0_r in R3. split; [|exact (wraps_narrow s' c c' base w Hc Hc' Hw R3)].
  assert (Hm' : means s' x (T_LIVE_COMPOUND t tbl base)) by (apply means_lookup; [discriminate|]; rewrite R6; apply means_lookup; auto; discriminate).
  pose proof (access s' x m' t tbl base Hm') as Ha'. pose proof (table_entry _ _ _ _ _ _ _ _ R7 Hn Hin') as [_ He2]. cbn [fst snd f_name] in He2.
  rewrite He2 in Ha'. rewrite Z.add_0_r in Ha'. exact Ha'.
Qed.

Lemma made_facts s rho l mbs t fs ps size v s' : object_made E s t fs ps size v s' -> Forall2 (describes E s rho l) mbs fs ->
  (placed 0 fs ps size -> inside size fs ps /\ apart fs ps) /\
  exists s1 tbl base, v = T_LIVE_COMPOUND t tbl base /\ member_table E s1 base s' fs ps tbl /\
    storage E s1 base size /\ storage E s' base size.
Proof.
  intros (tbl & base & s1 & -> & N & O & K & T) H. pose proof (describes_sizes E _ _ _ _ _ H) as Hf. split.
  - intros P. split; [eapply placed_inside; eauto; lia|]. apply ordered_apart. eapply placed_order; eauto.
  - exists s1, tbl, base. split; [reflexivity|]. split; [exact T|]. split; [exact (proj1 O)|]. apply K. exact (proj1 O).
Qed.

Lemma arrow_dot s s0 x t tbl base k mbs fs ps size rho f p :
  reachable E s -> means s x (T_LIVE_COMPOUND t tbl base) -> member_table E s0 base s fs ps tbl -> 0 < base ->
  complete s t k mbs ps size -> Forall2 (describes E s rho None) mbs fs -> inside size fs ps -> base + size < 2 ^ 64 ->
  NoDup (map f_name fs) -> In (f, p) (combine fs ps) -> snd f = None ->
  let d := T_COMP_ACCESS (T_DEREF (T_ADDR (T_IDENTIFIER x))) (T_IDENTIFIER (f_name f)) in
  let v := T_LIVE_VAR (f_type f) (base + p) false 0 in
  runs E s (T_COMP_ACCESS (T_IDENTIFIER x) (T_IDENTIFIER (f_name f))) (Ok v s) /\
  (out_of_memory E s d 16 \/ exists s', runs E s d (Ok v s') /\ only_new E s [] s').
Proof.
  intros Hr Hm Ht Hb HC Hd Hi Hz Hn Hin Hsc d v.
  assert (Hs : stack s <> []) by (eapply reachable_nonempty; eauto). split.
  - pose proof (access s x (f_name f) t tbl base Hm) as Ha. pose proof (table_entry _ _ _ _ _ _ _ _ Ht Hn Hin) as [_ He']. rewrite Hsc in He'. cbn [snd] in He'.
    rewrite He' in Ha. exact Ha.
  - assert (Hx : runs E s (T_IDENTIFIER x) (Ok (T_LIVE_COMPOUND t tbl base) s)) by (apply (proj2 (innermost _ _ _ _ _)); auto).
    destruct (address_compound E s (T_IDENTIFIER x) t tbl base s Hx Hs) as [(s' & H & Hn')|(q & s2 & H & N & O & M)].
    + left. exists s'. split; [|exact Hn']. apply lim_runs; [discriminate|]. unfold d. cbn [evaluate_1]. unfold eval_comp_access.
      apply (lim_bind_fail E _ _ _ _ _ (NoMemory 16 s')); [|reflexivity]. apply lim_eval1. cbn [evaluate_1]. unfold eval_deref.
      apply (lim_bind_fail E _ _ _ _ _ (NoMemory 16 s')); [|reflexivity]. apply lim_ev, H.
    + assert (Hlt : base < 2 ^ 64).
      { destruct (inside_member _ _ _ _ _ Hi Hin) as [I1 I2].
        assert (0 <= f_size f). { apply describes_sizes in Hd. rewrite Forall_forall in Hd. apply Hd. eapply in_combine_l; eauto. } lia. }
      rewrite Z.mod_small in M by lia.
      assert (Hq : storage E s2 q 8) by (destruct O as (O & _); eapply storage_sub; [exact O|lia|lia]).
      destruct (arrow s (T_ADDR (T_IDENTIFIER x)) (f_name f) t q false 0 s2 k mbs fs ps size rho None H (only_new_nonempty _ _ _ _ N) Hq)
        as [H'|(tbl' & s3 & H' & N' & T')].
      * eapply complete_rest; [apply N|exact HC].
      * eapply describes_all_sees; [apply sees_new, N|exact Hd].
      * exact Hi.
      * rewrite M. exact Hz.
      * left. exact H'.
      * right. exists s3. split; [|eapply only_new_trans0; eauto]. pose proof (table_entry _ _ _ _ _ _ _ _ T' Hn Hin) as [_ He']. rewrite Hsc in He'.
        cbn [snd] in He'. rewrite He', M in H'. exact H'.
Qed.

Lemma arrow_store s q m p t a arr n k mbs fs ps size rho e v c l : let base := unsigned_at (mem s) a 8 in
  let lhs := T_COMP_ACCESS (T_DEREF (T_IDENTIFIER q)) (T_IDENTIFIER m) in
  reachable E s -> means s q (T_LIVE_VAR (D_T_PTR t) a arr n) -> storage E s a 8 ->
  complete s t k mbs ps size -> Forall2 (describes E s rho None) mbs fs -> inside size fs ps -> base + size < 2 ^ 64 ->
  storage E s base size -> NoDup (map f_name fs) -> In ((m, D_T c, None), p) (combine fs ps) -> integer_type c = true ->
  plain s l lhs -> reads E s rho e -> computed e -> denote rho e = Some v ->
  out_of_memory E s (T_ASSIGN l lhs (syntax e)) 16 \/
  exists s' w, runs E s (T_ASSIGN l lhs (syntax e)) (Ok (T_INTEGER v) s') /\ clipped v w /\ wraps c w (value_at s' c (base + p)) /\
    (forall b, storage E s b 1 -> b < base + p \/ base + p + width c <= b -> mem s' b = mem s b) /\
    (forall b m, storage E s b m -> storage E s' b m) /\ (forall y, lookup s' y = lookup s y).
Proof.
  intros base lhs Hr Hm Ha HC Hd Hi Hz Hb Hn Hin Hc Hp Hre He Hde.
  assert (Hq : runs E s (T_IDENTIFIER q) (Ok (T_LIVE_VAR (D_T_PTR t) a arr n) s)) by (apply (proj2 (innermost _ _ _ _ _)); auto).
  destruct (arrow s (T_IDENTIFIER q) m t a arr n s k mbs fs ps size rho None Hq (reachable_nonempty _ _ Hr) Ha HC Hd Hi Hz)
    as [(s' & H & Hr')|(tbl & s2 & H & N & T)].
  - left. exists s'. split; [|exact Hr']. apply lim_runs; [discriminate|]. cbn [evaluate_1]. unfold eval_assign.
    eapply lim_bind; [apply lim_const; reflexivity|]. cbn beta. unfold assign_lhs.
    assert (Hq' : match zfind l (ov_asn s) with Some v => v | None => lhs end = lhs) by (destruct Hp as [-> | ->]; reflexivity).
    rewrite Hq'. apply (lim_bind_fail E _ _ _ _ _ _ (lim_ev E _ _ _ H)). reflexivity.
  - right. pose proof (table_entry _ _ _ _ _ _ _ _ T Hn Hin) as [_ He']. cbn [fst snd f_name] in He'. rewrite He' in H.
    change (f_type (m, D_T c, None)) with (D_T c) in H. destruct (inside_member _ _ _ _ _ Hi Hin) as [I1 I2].
    apply (store_through E l lhs rho e v c (base + p) 0 s s2); auto. change (f_size (m, D_T c, None)) with (width c) in I2. eapply storage_sub; [exact Hb|lia|lia].
Qed.
End Objects.
