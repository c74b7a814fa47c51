(** Proofs about structures and unions. *)
From Coq Require Import ZArith List String Bool Lia.
From Verif Require Import CInt CIntFacts Tree SpecResolver State Eval StepsFacts EvalInv SpecScope ScopeFacts SpecRun StuckFacts RunFacts RunRules
  SpecExpr ExprFacts SpecControl SpecStmt ControlFacts CallFacts SpecNames NameFacts SpecTypes SpecTypesFacts SpecVars VarFacts SpecCalls SpecPtr PtrFacts
  SpecEnum EnumFacts SpecStruct.
Import ListNotations.
Local Open Scope Z_scope.
Local Open Scope m_scope.
Local Open Scope list_scope.

(** ** Alignment *)

Lemma first_unique a o p q : first_multiple a o p -> first_multiple a o q -> p = q.
Proof. intros (P1 & P2 & P3) (Q1 & Q2 & Q3). specialize (P3 q Q1 Q2). specialize (Q3 p P1 P2). lia. Qed.

Lemma padding_first j o : 0 <= j <= 4 -> 0 <= o < 2 ^ 63 -> first_multiple (2 ^ j) o (o + padding o (2 ^ j)).
Proof.
  intros Hj Ho. assert (Hp : 0 < 2 ^ j) by (apply Z.pow_pos_nonneg; lia).
  assert (Hpad : padding o (2 ^ j) = (- o) mod 2 ^ j).
  { unfold padding. destruct (Z.eqb_spec o 0) as [->|Hn]; [rewrite Z.mod_0_l by lia; reflexivity|].
    unfold u64. rewrite (Z.mod_small (2 ^ j - 1)).
    2: { assert (2 ^ j <= 2 ^ 4) by (apply Z.pow_le_mono_r; lia). lia. }
    rewrite <- Z.pred_succ with (n := 2 ^ j - 1). replace (Z.succ (2 ^ j - 1)) with (2 ^ j) by lia.
    rewrite <- (Z.ones_equiv j), Z.land_ones by lia.
    replace (2 ^ 64) with (2 ^ j * 2 ^ (64 - j)) by (rewrite <- Z.pow_add_r by lia; f_equal; lia).
    rewrite Z.rem_mul_r by (try apply Z.pow_pos_nonneg; lia).
    rewrite (Z.mul_comm (2 ^ j) ((- o / 2 ^ j) mod _)), Z.mod_add by lia. apply Z.mod_mod. lia. }
  rewrite Hpad. pose proof (Z.mod_pos_bound (- o) (2 ^ j) Hp) as Hb. pose proof (Z.div_mod (- o) (2 ^ j) ltac:(lia)) as Hd.
  set (r := (- o) mod 2 ^ j) in *. set (d := - o / 2 ^ j) in *. split; [lia|]. split; [exists (- d); lia|].
  intros q Hq [k Hk]. subst q. assert (k * 2 ^ j >= - d * 2 ^ j); [|lia].
  assert (- d <= k \/ k <= - d - 1) as [H|H] by lia; nia.
Qed.

Lemma width_pow t : object_type t -> exists j, 0 <= j <= 4 /\ scalar_width t = 2 ^ j.
Proof.
  destruct t; cbn; try contradiction; intros _; [|exists 3; split; [lia|reflexivity]].
  destruct c; cbn; first [exists 0; split; [lia|reflexivity]|exists 1; split; [lia|reflexivity]|exists 2; split; [lia|reflexivity]
    |exists 3; split; [lia|reflexivity]|exists 4; split; [lia|reflexivity]].
Qed.

Lemma width_range t : object_type t -> 0 < scalar_width t <= 16.
Proof. destruct t; cbn; try contradiction; try lia. destruct c; cbn; lia. Qed.

(** ** What the layout says *)

Lemma placed_end o fs ps e : placed o fs ps e -> Forall (fun f => 0 <= f_size f) fs -> o <= e.
Proof.
  induction 1 as [o|o f fs p ps e (H1 & _) H IH]; intros Hf; [lia|]. inversion Hf; subst. specialize (IH H4). lia.
Qed.

Lemma placed_length o fs ps e : placed o fs ps e -> List.length ps = List.length fs.
Proof. induction 1; cbn; congruence. Qed.

(** ** Tags *)

Definition lookup_tag (s : state) (k : compound_type) (x : string) : tree := resolve_maps x (map (tags k) (scope_ctxs s)).

Lemma tag_lookup s k x t : t <> NULL -> (tag_means s k x t <-> lookup_tag s k x = t).
Proof.
  intros Ht. unfold tag_means, lookup_tag. change (scope_ctxs s) with (visible s). generalize (visible s). intros l. split.
  - intros (inner & c & outer & -> & Hi & _ & He). apply entry_resolve in He; auto.
    induction inner as [|d inner IH]; cbn [map app]; rewrite NameFacts.resolve_maps_cons.
    + rewrite He. destruct (is_NULL t) eqn:Hn; [apply is_NULL_spec in Hn; congruence|reflexivity].
    + assert (Hd : is_NULL (resolve_id x (tags k d)) = true).
      { destruct (is_NULL (resolve_id x (tags k d))) eqn:Hd; auto. exfalso.
        assert (resolve_id x (tags k d) <> NULL) by (intros H; apply is_NULL_spec in H; congruence).
        apply H. eapply Hi; [left; reflexivity|]. apply entry_resolve; auto. }
      rewrite Hd. apply IH. intros; eapply Hi; eauto. right; auto.
  - induction l as [|c l IH]; cbn [map]; [cbn; congruence|]. rewrite NameFacts.resolve_maps_cons.
    destruct (is_NULL (resolve_id x (tags k c))) eqn:Hd; intros H.
    + destruct (IH H) as (inner & d & outer & -> & Hi & _ & He). exists (c :: inner), d, outer.
      split; [reflexivity|]. split; [|auto]. intros e v [<-|He'] Hv; [|eauto]. apply is_NULL_spec in Hd.
      destruct (is_NULL v) eqn:Hn; [apply is_NULL_spec, Hn|]. assert (v <> NULL) by (intros ->; discriminate Hn).
      apply entry_resolve in Hv; congruence.
    + exists [], c, l. split; [reflexivity|]. split; [intros e v []|]. split; auto. apply entry_resolve; auto.
Qed.

(** ** What declarations depend on *)

Section Struct.
Variable E : env.

(** In [s'] names and tags mean the same as in [s]. *)
Definition sees (l : option Z) (s s' : state) : Prop :=
  (forall x, lookup s' x = lookup s x) /\ (forall k x, lookup_tag s' k x = lookup_tag s k x) /\
  (forall l', l <> Some l' -> zfind l' (comps s') = zfind l' (comps s)) /\ statics s' = statics s /\ kept E s s'.

Lemma sees_refl l s : sees l s s.
Proof. repeat split; auto. Qed.

Lemma sees_trans l s1 s2 s3 : sees l s1 s2 -> sees l s2 s3 -> sees l s1 s3.
Proof.
  intros (A1 & A2 & A3 & A4 & A5) (B1 & B2 & B3 & B4 & B5). split; [|split; [|split; [|split]]].
  - intros x. rewrite B1. apply A1.
  - intros k x. rewrite B2. apply A2.
  - intros l' H. rewrite B3 by auto. apply A3, H.
  - congruence.
  - eapply kept_trans; eauto.
Qed.

Lemma sees_new l s s' : only_new E s [] s' -> sees l s s'.
Proof.
  intros N. split; [intros x; apply (only_new_lookup E s [] s' x N); intros []|].
  destruct N as ((c & cs & al & H1 & H2 & _) & K & (R1 & _ & _ & _ & R2 & R3 & _)). split; [|split; [|split]]; auto.
  - intros k x. unfold lookup_tag, scope_ctxs. rewrite R1, H1, H2. cbn [map app]. destruct k; reflexivity.
  - intros l' _. rewrite R3. reflexivity.
Qed.

Lemma sees_open l name s : sees l s (open_scope E name s).
Proof.
  apply (sees_trans l s (after_tick E s)).
  - assert (G := gc_only_tick E s). split; [|split; [|split; [|split]]]; try reflexivity. apply kept_gc, G.
  - unfold open_scope. generalize (after_tick E s). intros s1. split; [|split; [|split; [|split]]]; try reflexivity.
    + intros k x. destruct k; reflexivity.
    + split; [|reflexivity]. intros a n (b & H1 & H2 & H3 & H4). exists b. split; [exact H1|]. split; [exact H2|]. split; [exact H3|].
      destruct H4 as [H4|H4]; auto.
Qed.

Lemma base_type_sees l s s' specs t : sees l s s' -> base_type s specs t -> base_type s' specs t.
Proof.
  intros (A1 & _) H. destruct H as [w t H|w x post t H Hm]; [constructor; auto|]. constructor; auto.
  assert (Hv : t <> NULL) by (destruct Hm as (?&?&?&_&_&Hv&_); exact Hv).
  apply means_lookup; auto. rewrite A1. apply means_lookup; auto.
Qed.

Lemma spec_type_sees l s s' specs t : sees l s s' -> spec_type s l specs t -> spec_type s' l specs t.
Proof.
  intros A H. destruct H as [specs t H|w l' k x post t H1 H2 H3 H4].
  - apply spec_base. eapply base_type_sees; eauto.
  - destruct A as (_ & A2 & A3 & _). apply spec_tag; auto.
    + rewrite A3 by auto. exact H2.
    + assert (Hv : t <> NULL) by (destruct H4 as (?&?&?&_&_&Hv&_); exact Hv).
      apply tag_lookup; auto. rewrite A2. apply tag_lookup; auto.
Qed.

Lemma reads_sees l s s' rho e : sees l s s' -> reads E s rho e -> reads E s' rho e.
Proof. intros (A1 & _ & _ & _ & A5) H y Hy. rewrite A1. eapply kept_number; eauto. Qed.

Lemma describes_sees l s s' rho m f : sees l s s' -> describes E s rho l m f -> describes E s' rho l m f.
Proof. intros A H. destruct H; constructor; eauto using spec_type_sees, reads_sees. Qed.

(** The type of a declaration. *)
Lemma decl_spec n l lc specs decls t s : spec_type s lc specs t -> is_NULL decls = false -> no_class specs ->
  eval_decl E (K E (S n)) l (CHAIN_HEAD specs) decls s = each_decl (fun d => k_hd (K E (S n)) d t) decls (after_tick E s).
Proof.
  intros H Hd Hc.
  assert (Hcl : forall x, In x [T_TYPEDEF; T_EXTERN; T_STATIC] -> chain_has x (CHAIN_HEAD specs) = false).
  { intros x Hx. destruct (chain_has x (CHAIN_HEAD specs)) eqn:Hh; auto. exfalso. apply (Hc x Hx), self_class; auto. }
  destruct H as [specs t H|w l' k x post t H1 H2 H3 H4].
  - rewrite (decl_known E n l specs decls t s H). unfold decl_rest. rewrite !Hcl by (cbn; tauto). destruct decls; try reflexivity; discriminate Hd.
  - unfold eval_decl, resolve_specs. unfold bind at 1. rewrite (bind_eq _ _ _ _ _ _ _ (tick_eq E s)).
    rewrite (proj1 (resolve_self w _ post (self_compound l' k (T_IDENTIFIER x) NULL)) H1). unfold ret at 1. unfold bind at 1, get.
    rewrite Hd. assert (Hv : t <> NULL) by (destruct H4 as (?&?&?&_&_&Hv&_); exact Hv).
    apply tag_lookup in H4; auto.
    assert (H2' : zfind l' (comps (after_tick E s)) = None) by exact H2.
    assert (H4' : lookup_tag (after_tick E s) k x = t) by exact H4.
    revert H2' H4'. generalize (after_tick E s). intros s1 H2' H4'.
    unfold is_T_DECL_COMPOUND, view_comp. rewrite H2'. cbn [is_T_IDENTIFIER is_T_ENUMERATOR orb].
    assert (Hev : k_ev (K E (S n)) (T_DECL_COMPOUND l' k (T_IDENTIFIER x) NULL) s1 = Ok t s1).
    { cbn [K k_ev evaluate_1]. unfold eval_decl_compound. unfold bind at 1, get. unfold view_comp. rewrite H2'.
      cbn [no_decls cd_split cd_decls negb is_NULL andb]. unfold resolve_compound. cbn [cd_id cd_type]. unfold bind, gets.
      change (resolve_maps x (map match k with sstruct => c_structs | uunion => c_unions end (scope_ctxs s1))) with
        (resolve_maps x (map (match k with sstruct => c_structs | uunion => c_unions end) (scope_ctxs s1))).
      replace (resolve_maps x (map (match k with sstruct => c_structs | uunion => c_unions end) (scope_ctxs s1))) with t
        by (rewrite <- H4'; destruct k; reflexivity).
      destruct t; try reflexivity. congruence. }
    rewrite (bind_eq _ _ _ _ _ _ _ Hev). rewrite !Hcl by (cbn; tauto). destruct decls; try reflexivity; discriminate Hd.
Qed.

Lemma lim_decl_spec l lc specs decls t s r : zfind l (statics s) = None -> spec_type s lc specs t -> is_NULL decls = false -> no_class specs ->
  lim E (fun k => each_decl (fun d => k_hd k d t) decls) (after_tick E s) r ->
  lim E (fun k => evaluate_1 E k (T_DECL l (CHAIN_HEAD specs) decls)) s r.
Proof.
  intros Hl Hs Hd Hc [m H]. exists (S m). intros i Hi. destruct i as [|i]; [lia|]. cbn [evaluate_1]. rewrite Hl.
  rewrite (decl_spec i l lc specs decls t s Hs Hd Hc). apply H. lia.
Qed.

(** ** Declaration of a member in a scope of its own *)

(** The value [v] is a new variable for the member [f]. *)
Definition model_var (f : field) (v : tree) : Prop :=
  match snd f with
  | None => exists a, v = T_LIVE_VAR (f_type f) a false 0
  | Some _ => exists a, v = T_LIVE_VAR (D_T_PTR (f_type f)) a true (f_size f)
  end.

Definition declares_one (f : knot -> M tree) (s : state) (x : string) (P : tree -> Prop) : Prop :=
  stack s <> [] -> (forall c cs, stack s = c :: cs -> resolve_id x (c_idmap c) = NULL) ->
  (exists n s', lim E f s (NoMemory n s')) \/
  exists v s', lim E f s (Ok (T_IDENTIFIER x) s') /\ only_new E s [(x, v)] s' /\ P v.

Lemma one_impl f s x (P Q : tree -> Prop) : (forall v, P v -> Q v) -> declares_one f s x P -> declares_one f s x Q.
Proof. intros H D Hs Hx. destruct (D Hs Hx) as [H'|(v & s' & H' & N & HP)]; [left; exact H'|right; exists v, s'; auto]. Qed.

Lemma one_ext f g s x P : (forall r, lim E g s r -> lim E f s r) -> declares_one g s x P -> declares_one f s x P.
Proof.
  intros H D Hs Hx. destruct (D Hs Hx) as [(n & s' & H')|(v & s' & H' & N & HP)]; [left; exists n, s'; auto|right; exists v, s'; auto].
Qed.

Lemma one_after f g s s1 x P : only_new E s [] s1 -> (forall r, lim E g s1 r -> lim E f s r) -> declares_one g s1 x P -> declares_one f s x P.
Proof.
  intros N H D Hs Hx. destruct (D (only_new_nonempty _ _ _ _ N) (new_here E _ _ _ _ N Hx ltac:(intros []))) as [(n & s' & H')|(v & s' & H' & N' & HP)].
  - left. exists n, s'. auto.
  - right. exists v, s'. split; auto. split; auto. eapply only_new_trans0; eauto.
Qed.

Lemma hd_var k n x t s : object_type (pointer_to n t) ->
  handle_declarator E k (stars n (T_IDENTIFIER x)) t s =
  bind (make_and_map_live_var E (T_IDENTIFIER x) (pointer_to n t)) (fun _ => ret (T_IDENTIFIER x)) (after_tick E s).
Proof.
  intros Ht. unfold handle_declarator. rewrite (bind_eq _ _ _ _ _ _ _ (tick_eq E s)), (resolve_ptr_stars n x t).
  apply object_scalar in Ht as Hsc. cbn [is_NULL]. rewrite scalar_not_null by exact Hsc. cbn [orb].
  unfold bind at 1, get. rewrite (object_not_comp _ _ Ht). cbn [andb]. destruct (pointer_to n t); try contradiction; reflexivity.
Qed.

Lemma one_var n x t s : object_type (pointer_to n t) ->
  declares_one (fun k => k_hd k (stars n (T_IDENTIFIER x)) t) s x (fun v => exists a, v = T_LIVE_VAR (pointer_to n t) a false 0).
Proof.
  intros Ht Hs Hx. pose proof (tick_new E s Hs) as N1.
  set (s1 := after_tick E s) in *. assert (Hs1 := only_new_nonempty _ _ _ _ N1).
  assert (Hinc : is_E_INCOMP_TYPE s1 (pointer_to n t) = false) by (destruct (pointer_to n t); try contradiction; reflexivity).
  destruct (make_live_var_new E s1 Hs1) as [(a & s2 & Ha & N2 & _)|Ha].
  - destruct (y_map E x (live_var (pointer_to n t) a) s2 (fun _ => True)
      (new_here E _ _ _ _ (only_new_trans0 E _ _ _ _ N1 N2) Hx ltac:(intros [])) (only_new_nonempty _ _ _ _ N2)) as [(k & s' & _ & H)|([] & s3 & H & N3 & _)].
    + exfalso. destruct (stack s2) as [|c cs] eqn:Es; [exact (only_new_nonempty _ _ _ _ N2 Es)|]. apply lim_const_inv in H.
      rewrite (map_identifier_cases E x _ s2 c cs Es) in H. destruct (is_NULL _); discriminate H.
    + right. exists (live_var (pointer_to n t) a), s3. split; [|split; [|exists a; reflexivity]].
      * apply lim_hd. apply lim_const. intros k. rewrite (hd_var k n x t s Ht). fold s1.
        unfold make_and_map_live_var, bind, get. rewrite Hinc, Ha. apply lim_const_inv in H. rewrite H. reflexivity.
      * eapply only_new_trans0; [exact N1|]. eapply only_new_trans0; eauto.
  - left. exists 16, (after_tick E s1). apply lim_hd. apply lim_const. intros k. rewrite (hd_var k n x t s Ht). fold s1.
    unfold make_and_map_live_var, bind, get. rewrite Hinc, Ha. reflexivity.
Qed.

Lemma one_array n x rho e z t s : object_type (pointer_to n t) -> reads E s rho e -> denote rho e = Some z ->
  declares_one (fun k => k_hd k (stars n (T_ARRAY (T_IDENTIFIER x) (syntax e))) t) s x
    (fun v => exists a, v = T_LIVE_VAR (D_T_PTR (pointer_to n t)) a true ((scalar_width (pointer_to n t) * (Z.abs z mod 2 ^ 64)) mod 2 ^ 64)).
Proof.
  intros Ht Hr Hd Hs Hx. pose proof (tick_new E s Hs) as N1. set (s1 := after_tick E s) in *.
  assert (Hl : forall r, lim E (fun k => declare_array E k (T_IDENTIFIER x) (syntax e) (pointer_to n t)) s1 r ->
    lim E (fun k => k_hd k (stars n (T_ARRAY (T_IDENTIFIER x) (syntax e))) t) s r).
  { intros r H. apply lim_hd. eapply lim_after; [|exact H]. intros k. apply hd_array, Ht. }
  destruct (y_declare_array E x rho e z (pointer_to n t) s1 (fun _ => True) I I (reads_new E _ _ _ _ N1 Hr) Hd Ht
    (new_here E _ _ _ _ N1 Hx ltac:(intros [])) (only_new_nonempty _ _ _ _ N1)) as [(k & s' & _ & H)|(v & s' & H & N & A)].
  - left. exists k, s'. auto.
  - right. exists v, s'. split; [auto|]. split; [eapply only_new_trans0; eauto|].
    destruct A as (p & base & -> & _). exists p. reflexivity.
Qed.

Lemma one_bits x w t s : object_type t ->
  declares_one (fun k => k_hd k (T_BITFIELD w (T_IDENTIFIER x)) t) s x (fun v => exists a, v = T_LIVE_VAR t a false 0).
Proof.
  intros Ht Hs Hx. pose proof (tick_new E s Hs) as N1.
  apply (one_after _ (fun k => k_hd k (T_IDENTIFIER x) t) s (after_tick E s)); auto.
  - intros r H. apply lim_hd. eapply lim_after; [|exact H]. intros k. unfold handle_declarator.
    rewrite (bind_eq _ _ _ _ _ _ _ (tick_eq E s)). cbn [resolve_ptr_type is_NULL orb].
    rewrite scalar_not_null by (apply object_scalar, Ht).
    unfold bind at 1, get. rewrite (object_not_comp _ _ Ht). cbn [andb]. destruct t; try contradiction; reflexivity.
  - exact (one_var 0 x t (after_tick E s) Ht).
Qed.

Lemma each_single d : declarator_tree d <> NULL /\ forall (f : tree -> M tree), each_decl f (declarator_tree d) = f (declarator_tree d).
Proof. destruct d as [[|n] x|[|n] x e|x w|w]; cbn; split; try discriminate; reflexivity. Qed.

Lemma one_member l lc m f rho s : zfind l (statics s) = None -> describes E s rho lc m f -> 0 <= f_size f < 2 ^ 64 ->
  declares_one (fun k => k_ev k (T_DECL l (CHAIN_HEAD (fst m)) (declarator_tree (snd m)))) s (f_name f) (model_var f).
Proof.
  intros Hl Hd Hz Hs Hx. pose proof (tick_new E s Hs) as N1.
  assert (Hk : forall t, spec_type s lc (fst m) t -> no_class (fst m) -> forall P,
    declares_one (fun k => k_hd k (declarator_tree (snd m)) t) (after_tick E s) (f_name f) P ->
    declares_one (fun k => k_ev k (T_DECL l (CHAIN_HEAD (fst m)) (declarator_tree (snd m)))) s (f_name f) P).
  { intros t Ht Hc P. apply one_after; [exact N1|]. intros r H. apply lim_eval1.
    destruct (each_single (snd m)) as [Hn He].
    eapply lim_decl_spec; eauto. { destruct (declarator_tree (snd m)); congruence || reflexivity. }
    eapply lim_ext; [|exact H]. intros k. cbn beta. rewrite He. reflexivity. }
  destruct Hd as [specs n x t H1 H2 H3|specs n x e t z H1 H2 H3 H4 H5 H6|specs x w t H1 H2 H3]; cbn [fst snd] in *.
  - revert Hs Hx. eapply Hk; eauto. unfold model_var. cbn. apply one_var, H3.
  - revert Hs Hx. eapply Hk; eauto. unfold model_var, f_size, f_align in *. cbn [snd fst f_type f_name] in *.
    eapply one_impl; [|apply (one_array n x rho e z t); auto; eapply reads_new; eauto].
    intros v (a & ->). exists a. f_equal. unfold f_type in *. cbn [fst snd] in *. rewrite Z.abs_eq by lia.
    pose proof (width_range _ H3). rewrite (Z.mod_small z) by nia. apply Z.mod_small. lia.
  - revert Hs Hx. eapply Hk; eauto. unfold model_var. cbn. apply one_bits, H3.
Qed.

(** ** Size and alignment of a member *)

Lemma y_size_value v n s (Q : Z -> Prop) : Q 16 -> (exists t a arr z, v = T_LIVE_VAR t a arr z) -> value_size s v n -> 0 <= n < 2 ^ 64 ->
  yields E (fun k => get_size_of_type E k v) s Q [] (fun r _ => r = n).
Proof.
  intros Hq (t & a & arr & z & ->) Hn Hr.
  apply (y_ext E _ _ (fun k => bind (tick E) (fun _ => bind (k_ev k (T_SIZEOF (T_LIVE_VAR t a arr z))) (fun sz =>
            match sz with T_LIVE_VAR _ a _ _ => load a 8 | _ => ub end)))).
  { reflexivity. }
  eapply y_bind0; [apply y_tick|]. intros _ s1 N1 _. cbn beta.
  eapply y_bind0.
  - apply y_eval1. eapply (y_sizeof E _ s1 Q [] (fun r _ => r = T_LIVE_VAR t a arr z) n); [exact Hq|apply y_eval1|].
    + eapply y_pure; [|reflexivity]. reflexivity.
    + intros r s2 N2 ->. eapply value_size_rest; [|exact Hn]. eapply same_rest_trans; [apply N1|apply N2].
  - intros r s2 N (p & -> & O & M). cbn beta iota.
    eapply (y_impl E _ _ _ Q Q); [auto| |apply y_load; eapply temp_storage; eauto].
    intros v s3 _ [_ ->]. change (Z.to_nat 8) with 8%nat. rewrite M. apply Z.mod_small. exact Hr.
Qed.

Lemma model_live f v : model_var f v -> exists t a arr z, v = T_LIVE_VAR t a arr z.
Proof. unfold model_var. destruct (snd f); intros (a & ->); eauto. Qed.

Lemma model_size f v s : model_var f v -> object_type (f_type f) -> value_size s v (f_size f).
Proof.
  unfold model_var, f_size, f_align. destruct (snd f); intros (a & ->) Ht; [apply vs_array|]. apply vs_var.
  destruct (f_type f); try contradiction; constructor.
Qed.

Lemma y_align f v s (Q : Z -> Prop) : Q 16 -> model_var f v -> object_type (f_type f) ->
  yields E (fun k => get_alignment_for_type E k v) s Q [] (fun r _ => r = f_align f).
Proof.
  intros Hq Hv Ht. unfold model_var in Hv. destruct (snd f); destruct Hv as (a & ->); cbn [get_alignment_for_type]; apply y_size; auto.
Qed.

Lemma describes_object s rho lc m f : describes E s rho lc m f -> object_type (f_type f).
Proof. intros H. destruct H; assumption. Qed.

(** ** One member of the layout *)

Lemma used_storage s s' : (forall b, used_block E s b -> used_block E s' b) -> forall a n, storage E s a n -> storage E s' a n.
Proof.
  intros H a n (b & H1 & H2 & H3 & H4). destruct (H b (conj H1 H4)) as [H5 H6]. exists b. auto.
Qed.

Lemma used_open name s b : used_block E s b -> used_block E (open_scope E name s) b.
Proof.
  intros H. split; [apply used_tick, H|]. destruct H as [_ [H|H]]; auto.
Qed.

Lemma layout_one l kind o mx m mb f rho s c cs C : stack s = c :: cs -> describes E s rho (Some l) mb f ->
  m_specs m = CHAIN_HEAD (fst mb) -> m_decl m = declarator_tree (snd mb) -> zfind (m_lbl m) (statics s) = None ->
  zfind l (comps s) = Some C -> 0 <= f_size f < 2 ^ 64 ->
  let p := o + padding o (f_align f) in
  (exists n s', lim E (fun k => layout_member E k l kind (o, mx) m) s (NoMemory n s')) \/
  exists s', lim E (fun k => layout_member E k l kind (o, mx) m) s
      (Ok (match kind with sstruct => (smod 32 (p + f_size f), mx) | uunion => (0, Z.max mx (f_size f)) end) s') /\
    only_type E s l s' /\ comps s' = (l, set_offset (m_lbl m) (u64 p) C) :: comps s /\ fresh s' = fresh s + 1.
Proof.
  intros Hs Hd Hsp Hde Hl HC Hz p.
  set (s1 := open_scope E "Compound Declaration" s).
  assert (S1 := sees_open (Some l) "Compound Declaration" s). fold s1 in S1.
  assert (Hs1 : stack s1 = mkctx (fresh s) "Compound Declaration" [] [] [] [] NULL false false :: c :: cs).
  { unfold s1, open_scope. cbn. rewrite Hs. reflexivity. }
  assert (Hn1 : stack s1 <> []) by (rewrite Hs1; discriminate).
  assert (Hm : forall r, lim E (fun k => 
     id <- k_ev k (T_DECL (m_lbl m) (CHAIN_HEAD (fst mb)) (declarator_tree (snd mb))) ;;
     lv <- resolve_identifier_current id ;; size <- get_size_of_type E k lv ;; align <- get_alignment_for_type E k lv ;;
     upd_comp l (set_offset (m_lbl m) (u64 (o + padding o align))) ;; pop_ctx ;;
     ret (match kind with sstruct => (smod 32 (o + padding o align + size), mx) | uunion => (0, Z.max mx size) end)) s1 r ->
     lim E (fun k => layout_member E k l kind (o, mx) m) s r).
  { intros r H. unfold layout_member. rewrite Hsp, Hde. eapply lim_bind; [apply lim_pure, push_open|]. exact H. }
  destruct (one_member (m_lbl m) (Some l) mb f rho s1 Hl (describes_sees _ _ _ _ _ _ S1 Hd) Hz Hn1)
    as [(n & s' & H)|(v & s2 & H & N2 & Hv)].
  { intros c0 cs0 H. rewrite Hs1 in H. injection H as <- <-. reflexivity. }
  { left. exists n, s'. apply Hm. apply (lim_bind_fail E _ _ _ _ _ _ H). reflexivity. }
  assert (Hr : forall k : knot, resolve_identifier_current (T_IDENTIFIER (f_name f)) s2 = Ok v s2).
  { intros _. destruct N2 as ((c1 & cs1 & al & Q1 & Q2 & _) & _). rewrite Hs1 in Q1. injection Q1 as <- <-.
    unfold resolve_identifier_current, bind, top. rewrite Q2. cbn. rewrite String.eqb_refl. reflexivity. }
  assert (Ho := describes_object _ _ _ _ _ Hd).
  assert (Y : yields E (fun k => size <- get_size_of_type E k v ;; align <- get_alignment_for_type E k v ;; ret (size, align)) s2 (fun _ => True) []
     (fun r _ => r = (f_size f, f_align f))).
  { eapply y_bind0; [apply (y_size_value v (f_size f)); [exact I|eapply model_live; eauto|eapply model_size; eauto|exact Hz]|].
    intros r s3 N3 ->. cbn beta. eapply y_bind0; [apply (y_align f v s3 (fun _ => True) I Hv Ho)|]. intros r s4 N4 ->. cbn beta.
    apply y_ret. reflexivity. }
  set (rest := fun sa : Z * Z => upd_comp l (set_offset (m_lbl m) (u64 (o + padding o (snd sa)))) ;; pop_ctx ;;
     ret (match kind with sstruct => (smod 32 (o + padding o (snd sa) + fst sa), mx) | uunion => (0, Z.max mx (fst sa)) end)).
  assert (Hm2 : forall r, lim E (fun k => bind (size <- get_size_of_type E k v ;; align <- get_alignment_for_type E k v ;; ret (size, align)) rest) s2 r ->
     lim E (fun k => layout_member E k l kind (o, mx) m) s r).
  { intros r H'. apply Hm. eapply lim_bind; [exact H|]. eapply lim_bind; [apply lim_const; exact Hr|].
    eapply lim_ext; [|exact H']. intros k. unfold rest, bind.
    destruct (get_size_of_type E k v s2) as [z1 s3| | | | | | | |]; try reflexivity.
    destruct (get_alignment_for_type E k v s3) as [z2 s4| | | | | | | |]; try reflexivity. }
  destruct (Y (only_new_nonempty _ _ _ _ N2)) as [(n & s' & _ & H')|(sa & s3 & H' & N3 & ->)].
  { left. exists n, s'. apply Hm2. apply (lim_bind_fail E _ _ _ _ _ _ H'). reflexivity. }
  right. pose proof (only_new_trans E _ _ _ _ _ N2 N3) as N. cbn [app] in N.
  assert (HC3 : comps s3 = comps s).
  { destruct N as (_ & _ & (_&_&_&_&_&R&_)). rewrite R. reflexivity. }
  assert (Hst : exists al, stack s3 = scope_plus (mkctx (fresh s) "Compound Declaration" [] [] [] [] NULL false false) [(f_name f, v)] al :: c :: cs /\
     forall b, used_block E s1 b -> In b (blocks s3)).
  { destruct N as ((c1 & cs1 & al & Q1 & Q2 & Q3) & _). rewrite Hs1 in Q1. injection Q1 as <- <-. exists al. split; [exact Q2|].
    intros b Hb. apply Q3, Hb. }
  destruct Hst as (al & Hst & Hbl).
  set (s4 := set_stack (fun _ => c :: cs) (set_comps (fun _ => (l, set_offset (m_lbl m) (u64 p) C) :: comps s) s3)).
  exists s4. split; [|split; [|split; [reflexivity|]]].
  - apply Hm2. eapply lim_bind; [exact H'|]. apply lim_const. intros _. unfold rest. cbn [fst snd]. fold p.
    unfold upd_comp, bind, get. rewrite HC3, HC. unfold set_comp, modify, pop_ctx. cbn [stack set_comps]. rewrite Hst.
    unfold ret, s4, set_comps, set_stack. cbn [mem blocks stack incl includes ov_ret ov_asn statics comps closures fresh trace ticks breaks].
    rewrite HC3. reflexivity.
  - destruct N as (_ & K & (R1 & R2 & R3 & R4 & R5 & R6 & R7 & R8 & R9)).
    assert (U : forall b, used_block E s b -> used_block E s4 b).
    { intros b Hb. split; [apply Hbl, used_open, Hb|]. destruct Hb as [_ Hb]. revert Hb. unfold roots.
      replace (incl s4) with (incl s) by (rewrite <- R1; reflexivity). replace (statics s4) with (statics s) by (rewrite <- R5; reflexivity).
      replace (stack s4) with (stack s) by (rewrite Hs; reflexivity). auto. }
    split; [rewrite Hs; reflexivity|]. split; [exact R1|]. split; [exact R2|]. split; [exact R3|]. split; [exact R4|].
    split; [exact R5|]. split; [exact R8|]. split; [exact R9|]. split; [change (fresh s4) with (fresh s3); rewrite R7; cbn; lia|].
    split; [|split; [|exact U]].
    + intros l' Hl'. cbn. destruct (Z.eqb_spec l' l); [contradiction|reflexivity].
    + split; [apply used_storage, U|]. intros a Ha. destruct S1 as (_ & _ & _ & _ & [K1 K2]). destruct K as [_ K].
      change (mem s4 a) with (mem s3 a). rewrite K by auto. apply K2, Ha.
  - destruct N as (_ & _ & (_ & _ & _ & _ & _ & _ & R7 & _)). change (fresh s4) with (fresh s3). rewrite R7. reflexivity.
Qed.

(** ** All members *)

Lemma only_type_refl l s : only_type E s l s.
Proof.
  do 8 (split; [reflexivity|]). split; [lia|]. split; [auto|]. split; [apply kept_refl|auto].
Qed.

Lemma only_type_trans l s1 s2 s3 : only_type E s1 l s2 -> only_type E s2 l s3 -> only_type E s1 l s3.
Proof.
  intros (A1 & A2 & A3 & A4 & A5 & A6 & A7 & A8 & A9 & A10 & A11 & A12) (B1 & B2 & B3 & B4 & B5 & B6 & B7 & B8 & B9 & B10 & B11 & B12).
  do 8 (split; [congruence|]). split; [lia|]. split; [intros l' Hl; rewrite B10, A10 by exact Hl; reflexivity|].
  split; [eapply kept_trans; eauto|auto].
Qed.

Lemma only_type_sees l s s' : only_type E s l s' -> sees (Some l) s s'.
Proof.
  intros (A1 & A2 & _ & _ & _ & A6 & _ & _ & _ & A10 & A11 & _). split; [|split; [|split; [|split]]]; auto.
  - intros x. unfold lookup, scope_ctxs. rewrite A1, A2. reflexivity.
  - intros k x. unfold lookup_tag, scope_ctxs. rewrite A1, A2. reflexivity.
  - intros l' Hl. apply A10. congruence.
Qed.

Definition comp_with (C : comp) (ms : list mdecl) : comp :=
  mkcomp (cd_type C) (cd_id C) (cd_decls C) (cd_split C) ms (cd_sz C) (cd_exp C).
Fixpoint with_offs (ms : list mdecl) (ps : list Z) : list mdecl :=
  match ms, ps with
  | m :: ms, p :: ps => mkmdecl (m_lbl m) (m_specs m) (m_decl m) p :: with_offs ms ps
  | _, _ => []
  end.

Lemma with_offs_map ms : forall ps, List.length ps = List.length ms ->
  map m_lbl (with_offs ms ps) = map m_lbl ms /\ map m_specs (with_offs ms ps) = map m_specs ms /\
  map m_decl (with_offs ms ps) = map m_decl ms /\ map m_off (with_offs ms ps) = ps.
Proof.
  induction ms as [|m ms IH]; intros [|p ps] H; try discriminate H; cbn; auto.
  destruct (IH ps) as (-> & -> & -> & ->); [cbn in H; congruence|]. auto.
Qed.

Lemma set_offset_at l1 m l2 q C : cd_mem C = l1 ++ m :: l2 -> NoDup (map m_lbl (l1 ++ m :: l2)) ->
  set_offset (m_lbl m) q C = comp_with C (l1 ++ mkmdecl (m_lbl m) (m_specs m) (m_decl m) q :: l2).
Proof.
  intros HC Hn. unfold set_offset, comp_with. rewrite HC. f_equal. rewrite map_app in *. cbn [map] in *. rewrite Z.eqb_refl.
  assert (Hid : forall l', ~ In (m_lbl m) (map m_lbl l') ->
     map (fun m0 => if m_lbl m0 =? m_lbl m then mkmdecl (m_lbl m0) (m_specs m0) (m_decl m0) q else m0) l' = l').
  { induction l' as [|m' l' IH]; intros H; cbn; auto. cbn in H. destruct (Z.eqb_spec (m_lbl m') (m_lbl m)); [tauto|]. rewrite IH; tauto. }
  apply NoDup_remove_2 in Hn. rewrite in_app_iff in Hn. rewrite !Hid by tauto. reflexivity.
Qed.

Definition member_of (m : mdecl) (mb : list tree * declarator) : Prop :=
  m_specs m = CHAIN_HEAD (fst mb) /\ m_decl m = declarator_tree (snd mb).

Lemma describes_all_sees l s s' rho mbs fs : sees l s s' -> Forall2 (describes E s rho l) mbs fs -> Forall2 (describes E s' rho l) mbs fs.
Proof. intros A H. induction H; constructor; auto. eapply describes_sees; eauto. Qed.

Lemma describes_size s rho lc m f : describes E s rho lc m f -> 0 <= f_size f.
Proof.
  intros H. assert (Ho := describes_object _ _ _ _ _ H). apply width_range in Ho. destruct H; unfold f_size, f_align, f_type in *; cbn [fst snd] in *; nia.
Qed.

Lemma describes_sizes s rho lc mbs fs : Forall2 (describes E s rho lc) mbs fs -> Forall (fun f => 0 <= f_size f) fs.
Proof. intros H. induction H; constructor; auto. eapply describes_size; eauto. Qed.

Lemma layout_all l k rho : forall ms mbs fs o mx ps e s c cs C done,
  stack s = c :: cs -> Forall2 member_of ms mbs -> Forall2 (describes E s rho (Some l)) mbs fs ->
  match k with
  | sstruct => placed o fs ps (fst e) /\ fst e < 2 ^ 31 /\ snd e = mx
  | uunion => o = 0 /\ ps = map (fun _ => 0) fs /\ e = (0, Z.max mx (largest fs)) /\ largest fs < 2 ^ 64
  end -> 0 <= o -> 0 <= mx ->
  (forall m, In m ms -> zfind (m_lbl m) (statics s) = None) -> NoDup (map m_lbl (done ++ ms)) ->
  zfind l (comps s) = Some C -> cd_mem C = done ++ ms ->
  (exists n s', lim E (fun kn => foldM (layout_member E kn l k) (o, mx) ms) s (NoMemory n s')) \/
  exists s', lim E (fun kn => foldM (layout_member E kn l k) (o, mx) ms) s (Ok e s') /\ only_type E s l s' /\
    zfind l (comps s') = Some (comp_with C (done ++ with_offs ms ps)).
Proof.
  induction ms as [|m ms IH]; intros mbs fs o mx ps e s c cs C done Hs Hm Hd Hp Ho Hmx Hl Hn HC HM.
  - inversion Hm; subst. inversion Hd; subst. right. exists s.
    assert (He : e = (o, mx) /\ ps = []).
    { destruct e as [e1 e2]. destruct k; cbn [fst snd] in *.
      - destruct Hp as (Hp & _ & ->). inversion Hp; subst. auto.
      - destruct Hp as (-> & -> & Hp & _). split; [|reflexivity]. rewrite Hp. cbn [largest map fold_right]. f_equal. unfold largest. cbn. lia. }
    destruct He as [-> ->]. split; [apply lim_const; reflexivity|]. split; [apply only_type_refl|]. rewrite HC. f_equal.
    destruct C. cbn in HM. subst. unfold comp_with. cbn. reflexivity.
  - inversion Hm as [|? mb ? mbs' [Hm1 Hm2] Hm3]; subst. inversion Hd as [|? f ? fs' Hd1 Hd2]; subst.
    assert (Hsz := describes_sizes _ _ _ _ _ Hd). inversion Hsz as [|? ? Hsz1 Hsz2]; subst.
    assert (Hob := describes_object _ _ _ _ _ Hd1). destruct (width_pow _ Hob) as (j & Hj & Hw).
    set (p := o + padding o (f_align f)).
    assert (HP : exists ps', ps = p :: ps' /\ u64 p = p /\ f_size f < 2 ^ 64 /\
       match k with
       | sstruct => placed (smod 32 (p + f_size f)) fs' ps' (fst e) /\ fst e < 2 ^ 31 /\ snd e = mx /\ smod 32 (p + f_size f) = p + f_size f /\ 0 <= p
       | uunion => p = 0 /\ ps' = map (fun _ => 0) fs' /\ e = (0, Z.max (Z.max mx (f_size f)) (largest fs')) /\ largest fs' < 2 ^ 64
       end).
    { destruct k.
      - destruct Hp as (Hp & Hlt & Hmx'). inversion Hp as [|? ? ? p' ps' e' HF HR]; subst.
        assert (Hend := placed_end _ _ _ _ HR Hsz2).
        assert (Hpp : p' = p). { apply (first_unique (f_align f) o); auto. unfold p. unfold f_align. rewrite Hw. apply padding_first; auto.
           destruct HF as (HF & _). lia. }
        subst p'. destruct HF as (HF & _). exists ps'. split; [reflexivity|]. split; [apply Z.mod_small; lia|]. split; [lia|].
        rewrite (smod_id 32 (p + f_size f)) by lia. split; [exact HR|]. split; [exact Hlt|]. split; [auto|]. split; [reflexivity|lia].
      - destruct Hp as (-> & -> & -> & Hlt). exists (map (fun _ => 0) fs'). unfold largest in Hlt. cbn [map fold_right] in Hlt.
        assert (Hp0 : p = 0) by reflexivity. rewrite Hp0. split; [reflexivity|]. split; [reflexivity|]. split; [lia|].
        split; [reflexivity|]. split; [reflexivity|]. split; [|unfold largest; lia].
        f_equal. unfold largest. cbn [map fold_right]. lia. }
    destruct HP as (ps' & -> & Hu & Hlt & HP).
    assert (Hz : 0 <= f_size f < 2 ^ 64) by lia.
    destruct (layout_one l k o mx m mb f rho s c cs C Hs Hd1 Hm1 Hm2 (Hl m (or_introl eq_refl)) HC Hz) as [(n & s' & H)|(s1 & H & T & HC1 & _)].
    { left. exists n, s'. cbn [foldM]. apply (lim_bind_fail E _ _ _ _ _ _ H). reflexivity. }
    fold p in H, HC1. rewrite Hu, (set_offset_at _ _ _ _ _ HM Hn) in HC1.
    set (m' := mkmdecl (m_lbl m) (m_specs m) (m_decl m) p) in *.
    assert (Hs1 : stack s1 = c :: cs) by (destruct T as (-> & _); exact Hs).
    assert (Hz1 : zfind l (comps s1) = Some (comp_with C (done ++ m' :: ms))) by (rewrite HC1; cbn; rewrite Z.eqb_refl; reflexivity).
    set (acc := match k with sstruct => (smod 32 (p + f_size f), mx) | uunion => (0, Z.max mx (f_size f)) end) in *.
    destruct (IH mbs' fs' (fst acc) (snd acc) ps' e s1 c cs (comp_with C (done ++ m' :: ms)) (done ++ [m'])) as [(n & s' & H')|(s2 & H' & T2 & HC2)]; auto.
    + eapply describes_all_sees; [apply only_type_sees, T|exact Hd2].
    + unfold acc. destruct k; cbn [fst snd]; tauto.
    + unfold acc. destruct k; cbn [fst snd]; [|lia]. destruct HP as (_ & _ & _ & -> & HP0). lia.
    + unfold acc. destruct k; cbn [fst snd]; lia.
    + intros m0 Hm0. destruct T as (_ & _ & _ & _ & _ & -> & _). apply Hl. right. exact Hm0.
    + rewrite <- app_assoc. cbn [app]. revert Hn. rewrite !map_app. cbn [map]. auto.
    + cbn [comp_with cd_mem]. rewrite <- app_assoc. reflexivity.
    + left. exists n, s'. cbn [foldM]. eapply lim_bind; [exact H|]. rewrite <- surjective_pairing in H'. exact H'.
    + right. exists s2. split; [cbn [foldM]; eapply lim_bind; [exact H|]; rewrite <- surjective_pairing in H'; exact H'|].
      split; [eapply only_type_trans; eauto|]. rewrite HC2. f_equal. unfold comp_with. cbn [cd_type cd_id cd_decls cd_split cd_sz cd_exp with_offs].
      rewrite <- app_assoc. reflexivity.
Qed.

(** ** The declaration *)

Lemma split_members gs : flat_map split_decl (map group_tree gs) = map (fun m => (CHAIN_HEAD (fst m), declarator_tree (snd m))) (members gs).
Proof.
  induction gs as [|[[l specs] ds] gs IH]; auto. cbn [map flat_map members]. rewrite IH. fold (members gs). rewrite map_app. f_equal.
  cbn [group_tree split_decl fst snd]. destruct ds as [|d ds]; [reflexivity|]. cbn [chain_elems]. 
  generalize (d :: ds) as l'. clear. induction l' as [|d l' IH]; auto. cbn [map flat_map filter]. rewrite IH.
  destruct d as [[|n] x|[|n] x e|x w|w]; reflexivity.
Qed.

Lemma tick_type l s : only_type E s l (after_tick E s).
Proof.
  do 8 (split; [reflexivity|]). split; [cbn; lia|]. split; [reflexivity|]. split; [apply kept_gc, gc_only_tick|].
  intros b Hb. split; [apply used_tick, Hb|apply Hb].
Qed.

Lemma fresh_type l s : only_type E s l (set_fresh (fun n => n + 1) s).
Proof.
  do 8 (split; [reflexivity|]). split; [cbn; lia|]. split; [reflexivity|]. split; [split; auto|]. auto.
Qed.

Lemma comps_type l s s' f : only_type E s l s' -> only_type E s l (set_comps (fun m => (l, f) :: m) s').
Proof.
  intros (A1 & A2 & A3 & A4 & A5 & A6 & A7 & A8 & A9 & A10 & A11 & A12).
  do 9 (split; [assumption|]). split; [|split; auto].
  intros l' Hl. cbn. destruct (Z.eqb_spec l' l); [contradiction|]. apply A10, Hl.
Qed.

Lemma expand_ok l gs : forall s, exists ms s', expand_decl_chain E (CHAIN_HEAD (map group_tree gs)) s = Ok ms s' /\ only_type E s l s' /\
  comps s' = comps s /\ Forall2 member_of ms (members gs) /\ NoDup (map m_lbl ms) /\ forall m, In m ms -> fresh s <= m_lbl m < fresh s'.
Proof.
  intros s. unfold expand_decl_chain. cbn [chain_elems]. rewrite split_members. generalize (members gs). intros mbs. revert s.
  induction mbs as [|mb mbs IH]; intros s.
  - exists [], s. split; [reflexivity|]. split; [apply only_type_refl|]. split; [reflexivity|]. split; [constructor|]. split; [constructor|]. intros m [].
  - cbn [map mapM]. set (s1 := set_fresh (fun n => n + 1) (after_tick E s)).
    assert (T1 : only_type E s l s1) by (eapply only_type_trans; [apply tick_type|apply fresh_type]).
    destruct (IH s1) as (ms & s' & H & T & Hc & Hf & Hn & Hr).
    exists (mkmdecl (fresh s) (CHAIN_HEAD (fst mb)) (declarator_tree (snd mb)) 0 :: ms), s'. split; [|split; [|split; [|split; [|split]]]].
    + cbn [fst snd].
      assert (H1 : bind (tick E) (fun _ => bind fresh_id (fun i => ret (mkmdecl i (CHAIN_HEAD (fst mb)) (declarator_tree (snd mb)) 0))) s =
        Ok (mkmdecl (fresh s) (CHAIN_HEAD (fst mb)) (declarator_tree (snd mb)) 0) s1) by reflexivity.
      rewrite (bind_eq _ _ _ _ _ _ _ H1), (bind_eq _ _ _ _ _ _ _ H). reflexivity.
    + eapply only_type_trans; eauto.
    + rewrite Hc. reflexivity.
    + constructor; auto. split; reflexivity.
    + cbn [map m_lbl]. constructor; auto. intros Hi. apply in_map_iff in Hi as (m & Hm & Hi). apply Hr in Hi.
      change (fresh s1) with (fresh s + 1) in Hi. lia.
    + destruct T as (_ & _ & _ & _ & _ & _ & _ & _ & HT & _). change (fresh s1) with (fresh s + 1) in *.
      intros m [<-|Hi]; [cbn; lia|]. apply Hr in Hi. lia.
Qed.

Lemma forall2_length A B (R : A -> B -> Prop) l l' : Forall2 R l l' -> List.length l = List.length l'.
Proof. induction 1; cbn; congruence. Qed.

Definition layout_result (k : compound_type) (fs : list field) (ps : list Z) (size : Z) : Prop :=
  match k with
  | sstruct => placed 0 fs ps size /\ size < 2 ^ 31
  | uunion => ps = map (fun _ => 0) fs /\ size = largest fs /\ largest fs < 2 ^ 64
  end.

(** eval_decl_compound after the tag. *)
Definition comp_tail (k : knot) (t' : tree) : M tree :=
  s <- get ;;
  match view_comp s t', comp_label t' with
  | Some c', Some l =>
      if cd_exp c' then ret t' else
      (tick E ;;
       ms <- expand_decl_chain E (cd_decls c') ;;
       set_comp l (mkcomp (cd_type c') (cd_id c') (cd_decls c') true ms 0 false) ;;
       r <- foldM (layout_member E k l (cd_type c')) (0, 0) ms ;;
       upd_comp l (fun c => mkcomp (cd_type c) (cd_id c) (cd_decls c) (cd_split c) (cd_mem c)
                              (match cd_type c' with sstruct => u64 (fst r) | uunion => snd r end)
                              true) ;;
       ret t')
  | _, _ => ub
  end.

Lemma own_labels_type l s s' : only_type E s l s' -> own_labels s -> own_labels s'.
Proof. intros (_ & _ & _ & _ & _ & A & _ & _ & B & _) H i Hi. rewrite A. apply H. lia. Qed.

Lemma view_label s t l c : comp_label t = Some l -> zfind l (comps s) = Some c -> view_comp s t = Some c.
Proof. destruct t; try discriminate; cbn; intros [= ->] ->; reflexivity. Qed.

Lemma layout_length k fs ps size : layout_result k fs ps size -> List.length ps = List.length fs.
Proof. destruct k; cbn; [intros [H _]; eapply placed_length; eauto|intros (-> & _); apply map_length]. Qed.

Lemma members_map ms mbs : Forall2 member_of ms mbs ->
  map m_specs ms = map (fun m => CHAIN_HEAD (fst m)) mbs /\ map m_decl ms = map (fun m => declarator_tree (snd m)) mbs.
Proof. induction 1 as [|m mb ms mbs [H1 H2] H [IH1 IH2]]; cbn; auto. rewrite H1, H2, IH1, IH2. auto. Qed.

Lemma layout_core t l k id gs rho fs ps size s c cs : stack s = c :: cs ->
  view_comp s t = Some (mkcomp k id (CHAIN_HEAD (map group_tree gs)) false [] 0 false) -> comp_label t = Some l -> own_labels s ->
  Forall2 (describes E s rho (Some l)) (members gs) fs -> layout_result k fs ps size ->
  (exists n s', lim E (fun kn => comp_tail kn t) s (NoMemory n s')) \/
  exists s', lim E (fun kn => comp_tail kn t) s (Ok t s') /\ only_type E s l s' /\ complete s' t k (members gs) ps size.
Proof.
  intros Hs Hv Hl Ho Hd Hr. destruct (expand_ok l gs (after_tick E s)) as (ms & s2 & He & T2 & Hc2 & Hm & Hn & Hb).
  set (C := mkcomp k id (CHAIN_HEAD (map group_tree gs)) true ms 0 false).
  set (s3 := set_comps (fun m => (l, C) :: m) s2).
  assert (T3 : only_type E s l s3) by (apply comps_type; eapply only_type_trans; [apply tick_type|exact T2]).
  assert (Hp : forall r, lim E (fun kn => bind (foldM (layout_member E kn l k) (0, 0) ms) (fun r =>
       bind (upd_comp l (fun c => mkcomp (cd_type c) (cd_id c) (cd_decls c) (cd_split c) (cd_mem c)
                              (match k with sstruct => u64 (fst r) | uunion => snd r end) true)) (fun _ => ret t))) s3 r ->
     lim E (fun kn => comp_tail kn t) s r).
  { intros r H. eapply lim_after; [|exact H]. intros kn. unfold comp_tail. unfold bind at 1, get. rewrite Hv, Hl. cbn [cd_exp cd_type cd_id cd_decls].
    rewrite (bind_eq _ _ _ _ _ _ _ (tick_eq E s)), (bind_eq _ _ _ _ _ _ _ He). unfold bind at 1, set_comp, modify. reflexivity. }
  assert (Hs3 : stack s3 = c :: cs) by (destruct T3 as (-> & _); exact Hs).
  assert (Hlen := layout_length _ _ _ _ Hr).
  assert (Hsz := describes_sizes _ _ _ _ _ Hd).
  set (e := match k with sstruct => (size, 0) | uunion => (0, size) end).
  destruct (layout_all l k rho ms (members gs) fs 0 0 ps e s3 c cs C []) as [(n & s' & H)|(s4 & H & T4 & HC4)]; auto.
  - eapply describes_all_sees; [apply only_type_sees, T3|exact Hd].
  - unfold e. destruct k; cbn [fst snd] in *; [destruct Hr; auto|]. destruct Hr as (-> & -> & Hr). split; [reflexivity|]. split; [reflexivity|].
    split; [|exact Hr]. f_equal. assert (0 <= largest fs); [|lia]. unfold largest. clear. induction (map f_size fs); cbn; lia.
  - lia.
  - lia.
  - intros m Hi. apply Hb in Hi. destruct T3 as (_ & _ & _ & _ & _ & -> & _). apply Ho.
    change (fresh (after_tick E s)) with (fresh s) in Hi. lia.
  - cbn. rewrite Z.eqb_refl. reflexivity.
  - left. exists n, s'. apply Hp. apply (lim_bind_fail E _ _ _ _ _ _ H). reflexivity.
  - right.
    set (C' := mkcomp k id (CHAIN_HEAD (map group_tree gs)) true (with_offs ms ps) size true).
    exists (set_comps (fun m => (l, C') :: m) s4). split; [|split].
    + apply Hp. eapply lim_bind; [exact H|]. apply lim_const. intros _. unfold upd_comp, bind, get. rewrite HC4.
      assert (Hq : match k with sstruct => u64 (fst e) | uunion => snd e end = size).
      { unfold e. destruct k; cbn [fst snd]; [|reflexivity]. destruct Hr as [Hr Hlt]. apply Z.mod_small.
        pose proof (placed_end _ _ _ _ Hr Hsz). lia. }
      rewrite Hq. reflexivity.
    + apply comps_type. eapply only_type_trans; eauto.
    + exists C'. split; [apply (view_label _ _ l); [exact Hl|cbn; rewrite Z.eqb_refl; reflexivity]|].
      assert (Hlm : List.length ms = List.length fs).
      { apply forall2_length in Hm. apply forall2_length in Hd. congruence. }
      destruct (with_offs_map ms ps ltac:(congruence)) as (_ & W2 & W3 & W4).
      destruct (members_map _ _ Hm) as [M1 M2].
      unfold C'. cbn [cd_type cd_exp cd_sz cd_mem]. rewrite W2, W3, W4, M1, M2. do 5 (split; [reflexivity|]). reflexivity.
Qed.

Lemma tagged_type k tag t s c cs l : stack s = c :: cs -> only_type E (tagged k tag t s) l (tagged k tag t (after_tick E s)).
Proof.
  intros Hs. do 8 (split; [reflexivity|]). split; [cbn; lia|]. split; [reflexivity|].
  assert (Hr : forall s1, stack s1 = c :: cs -> roots E (tagged k tag t s1) = roots E s1).
  { intros s1 H1. unfold roots, tagged. cbn [stack set_stack incl statics]. rewrite H1. cbn [flat_map].
    assert (Ha : c_allocs (with_tag k tag t c) = c_allocs c) by (destruct tag, k; reflexivity). rewrite Ha. reflexivity. }
  assert (U : forall b, used_block E (tagged k tag t s) b -> used_block E (tagged k tag t (after_tick E s)) b).
  { intros b [H1 H2]. rewrite (Hr s Hs) in H2. split; [apply used_tick; split; assumption|]. rewrite Hr by exact Hs. exact H2. }
  split; [split; [apply used_storage, U|reflexivity]|exact U].
Qed.

Lemma tag_free_resolve k x c : ~ In x (map fst (tags k c)) -> resolve_id x (tags k c) = NULL.
Proof.
  generalize (tags k c). intros m. induction m as [|[y t] m IH]; cbn; auto. intros H. destruct (String.eqb_spec y x); [tauto|]. apply IH. tauto.
Qed.

Lemma lim_compound l k tag gs s c cs : stack s = c :: cs -> zfind l (comps s) = None -> tag_free k tag c ->
  exists s1, let d := compound_tree l k tag gs in
    (forall r, lim E (fun kn => comp_tail kn d) s1 r -> lim E (fun kn => evaluate_1 E kn d) s r) /\
    only_type E (tagged k tag d s) l s1 /\ zfind l (comps s1) = None.
Proof.
  intros Hs Hl Hf. cbv zeta. set (d := compound_tree l k tag gs).
  assert (Hv : view_comp s d = Some (mkcomp k (tag_tree tag) (CHAIN_HEAD (map group_tree gs)) false [] 0 false)).
  { unfold d, compound_tree. cbn. rewrite Hl. reflexivity. }
  destruct tag as [x|].
  - exists (tagged k (Some x) d (after_tick E s)). split; [|split; [eapply tagged_type; exact Hs|exact Hl]].
    intros r H. eapply lim_after; [|exact H]. intros kn. unfold d, compound_tree. cbn [evaluate_1]. fold (compound_tree l k (Some x) gs). fold d.
    unfold eval_decl_compound. unfold bind at 1, get. rewrite Hv. cbn [no_decls cd_split cd_decls cd_id negb is_NULL andb tag_tree].
    assert (Hmap : bind (resolve_compound (mkcomp k (T_IDENTIFIER x) (CHAIN_HEAD (map group_tree gs)) false [] 0 false) false)
        (fun fd => match fd with
                   | NULL => map_compound E (mkcomp k (T_IDENTIFIER x) (CHAIN_HEAD (map group_tree gs)) false [] 0 false) d ;; ret d
                   | _ => match comp_label fd with
                          | Some l => set_comp l (mkcomp k (T_IDENTIFIER x) (CHAIN_HEAD (map group_tree gs)) false [] 0 false) ;; ret fd
                          | None => ub
                          end
                   end) s = Ok d (tagged k (Some x) d (after_tick E s))).
    { unfold resolve_compound. cbn [cd_id cd_type]. unfold bind at 1. unfold bind at 1, top. rewrite Hs. unfold ret at 1.
      change (match k with sstruct => c_structs | uunion => c_unions end c) with ((match k with sstruct => c_structs | uunion => c_unions end) c).
      replace ((match k with sstruct => c_structs | uunion => c_unions end) c) with (tags k c) by (destruct k; reflexivity).
      rewrite (tag_free_resolve _ _ _ Hf). unfold map_compound. cbn [cd_id cd_type]. unfold bind at 1.
      rewrite (bind_eq _ _ _ _ _ _ _ (tick_eq E s)).
      assert (Hs1 : stack (after_tick E s) = c :: cs) by exact Hs. revert Hs1. generalize (after_tick E s). intros s1 Hs1.
      unfold tagged, set_stack, with_tag. destruct k; rewrite (upd_top_with _ s1) by congruence; unfold ret, with_top, set_stack; rewrite Hs1; reflexivity. }
    rewrite (bind_eq _ _ _ _ _ _ _ Hmap). reflexivity.
  - exists s. split; [|split; [|exact Hl]].
    + intros r H. eapply lim_after; [|exact H]. intros kn. unfold d, compound_tree. cbn [evaluate_1]. fold (compound_tree l k None gs). fold d.
      unfold eval_decl_compound. unfold bind at 1, get. rewrite Hv. reflexivity.
    + assert (Ht : tagged k None d s = s) by (unfold tagged, set_stack; rewrite Hs; destruct s; cbn in *; subst; reflexivity).
      rewrite Ht. apply only_type_refl.
Qed.

Theorem compound_declared l k tag gs rho fs ps size s c cs : let d := compound_tree l k tag gs in
  stack s = c :: cs -> zfind l (comps s) = None -> tag_free k tag c -> own_labels s ->
  Forall2 (describes E (tagged k tag d s) rho (Some l)) (members gs) fs -> layout_result k fs ps size ->
  (exists n, out_of_memory E s d n) \/
  exists s', runs E s d (Ok d s') /\ only_type E (tagged k tag d s) l s' /\ complete s' d k (members gs) ps size.
Proof.
  intros d Hs Hl Hf Ho Hd Hr. destruct (lim_compound l k tag gs s c cs Hs Hl Hf) as (s1 & H1 & T1 & Hl1). fold d in H1, T1.
  assert (Hs1 : exists c1, stack s1 = c1 :: cs).
  { destruct T1 as (-> & _). unfold tagged. cbn [stack set_stack]. rewrite Hs. eauto. }
  destruct Hs1 as (c1 & Hs1).
  assert (Hv1 : view_comp s1 d = Some (mkcomp k (tag_tree tag) (CHAIN_HEAD (map group_tree gs)) false [] 0 false))
    by (unfold d, compound_tree; cbn; rewrite Hl1; reflexivity).
  assert (Ho1 : own_labels s1) by (eapply own_labels_type; [exact T1|exact Ho]).
  destruct (layout_core d l k (tag_tree tag) gs rho fs ps size s1 c1 cs Hs1 Hv1 eq_refl Ho1
    (describes_all_sees _ _ _ _ _ _ (only_type_sees _ _ _ T1) Hd) Hr) as [(n & s' & H)|(s' & H & T & HC)].
  - left. exists n. eapply oom. apply lim_runs; [discriminate|]. apply H1, H.
  - right. exists s'. split; [apply lim_runs; [discriminate|]; apply H1, H|]. split; [eapply only_type_trans; eauto|exact HC].
Qed.

(** ** Objects *)

Lemma resolve_ptr_var n x t : resolve_ptr_type (stars n (T_IDENTIFIER x)) t = (T_IDENTIFIER x, pointer_to n t).
Proof. apply resolve_ptr_stars. Qed.

(** The type of a member when an object is made. *)
Lemma y_spec lc specs t s Q : spec_type s lc specs t ->
  yields E (fun k => bind (resolve_specs E (CHAIN_HEAD specs)) (fun t0 => bind get (fun s =>
    if is_T_IDENTIFIER t0 || is_T_DECL_COMPOUND s t0 then k_ev k t0 else ret t0))) s Q [] (fun r s' => r = t /\ only_gc E s s').
Proof.
  intros H Hs. right. exists t, (after_tick E s). split; [|split; [apply tick_new, Hs|split; [reflexivity|apply gc_only_tick]]].
  assert (G := sees_new lc s (after_tick E s) (tick_new E s Hs)).
  apply (spec_type_sees _ _ _ _ _ G) in H.
  exists 1%nat. intros i Hi. destruct i as [|i]; [lia|]. unfold bind at 1. unfold resolve_specs. rewrite (bind_eq _ _ _ _ _ _ _ (tick_eq E s)).
  revert H. generalize (after_tick E s). intros s1 H. clear G.
  destruct H as [specs t Hb|w l' k x post t H1 H2 H3 H4]; [destruct Hb as [w t Hw|w x post t Hw Hm]|].
  - rewrite (proj2 (resolve_type w t) Hw). unfold ret at 1. unfold bind, get. apply denotes_type in Hw.
    destruct t; try contradiction; reflexivity.
  - rewrite (proj1 (resolve_self w (T_IDENTIFIER x) post (self_name x)) Hw). unfold ret at 1, bind, get. cbn [is_T_IDENTIFIER orb].
    cbn [K k_ev evaluate_1]. unfold eval_identifier, resolve_identifier_global, bind, gets.
    assert (Hv : t <> NULL) by (destruct Hm as (?&?&?&_&_&Hv&_); exact Hv).
    apply (means_lookup s1 x t Hv) in Hm. fold (lookup s1 x). rewrite Hm. destruct t; try reflexivity. congruence.
  - rewrite (proj1 (resolve_self w _ post (self_compound l' k (T_IDENTIFIER x) NULL)) H1). unfold ret at 1. unfold bind at 1, get.
    assert (Hv : t <> NULL) by (destruct H4 as (?&?&?&_&_&Hv&_); exact Hv).
    apply tag_lookup in H4; auto.
    unfold is_T_DECL_COMPOUND, view_comp. rewrite H2. cbn [is_T_IDENTIFIER orb].
    cbn [K k_ev evaluate_1]. unfold eval_decl_compound. unfold bind at 1, get. unfold view_comp. rewrite H2.
    cbn [no_decls cd_split cd_decls negb is_NULL andb]. unfold resolve_compound. cbn [cd_id cd_type]. unfold bind, gets.
    replace (resolve_maps x (map (match k with sstruct => c_structs | uunion => c_unions end) (scope_ctxs s1))) with t
        by (rewrite <- H4; destruct k; reflexivity).
    destruct t; try reflexivity. congruence.
Qed.

(** instantiate_struct_element after the type. *)
Definition inst_tail (k : knot) (base : Z) (ms : list (string * tree)) (m : mdecl) (t1 : tree) : M (list (string * tree)) :=
  let '(elem, type) := member_type t1 (m_decl m) in
  match elem with
  | T_ARRAY d sz =>
      len <- get_array_size E k sz type ;;
      lv <- instantiate_array E d type (u64 (base + m_off m)) len ;;
      map_member E d lv ms
  | _ =>
      if is_CTYPE type
      then tick E ;; map_member E elem (live_var type (u64 (base + m_off m))) ms
      else
        (s <- get ;;
         if is_T_DECL_COMPOUND s type
         then lc <- k_inst k type (u64 (base + m_off m)) ;; map_member E elem lc ms
         else die)
  end.

Lemma y_inst_type k0 base ms m lc specs t s Q P : m_specs m = CHAIN_HEAD specs -> spec_type s lc specs t ->
  (forall s1, only_new E s [] s1 -> yields E (fun k => inst_tail k base ms m t) s1 Q k0 P) ->
  yields E (fun k => instantiate_struct_element E k base ms m) s Q k0 P.
Proof.
  intros Hsp Ht Hy.
  apply (y_ext E _ _ (fun k => bind (bind (resolve_specs E (CHAIN_HEAD specs)) (fun t0 => bind get (fun s =>
    if is_T_IDENTIFIER t0 || is_T_DECL_COMPOUND s t0 then k_ev k t0 else ret t0))) (inst_tail k base ms m))).
  { intros k. unfold instantiate_struct_element, inst_tail. rewrite Hsp. unfold bind.
    destruct (resolve_specs E (CHAIN_HEAD specs) s) as [t0 s1| | | | | | | |]; reflexivity. }
  eapply y_bind0; [apply (y_spec lc specs t s Q Ht)|]. intros r s1 N [-> _]. apply Hy, N.
Qed.

Lemma y_map_member x v ms s Q : yields E (fun _ => map_member E (T_IDENTIFIER x) v ms) s Q [] (fun r s' => r = ms ++ [(x, v)] /\ mem s' = mem s).
Proof.
  unfold map_member. eapply y_bind0; [apply y_tick|]. intros _ s1 _ ->. cbn beta iota. apply y_ret. split; reflexivity.
Qed.

Lemma y_inst_one base acc m mb f rho lc s (Q : Z -> Prop) : Q 16 -> member_of m mb -> describes E s rho lc mb f ->
  0 <= base + m_off m < 2 ^ 64 -> f_size f < 2 ^ 64 ->
  yields E (fun k => instantiate_struct_element E k base acc m) s Q []
    (fun r s' => exists e, r = acc ++ [e] /\ member_entry E s base f (m_off m) e s').
Proof.
  intros Hq [Hm1 Hm2] Hd Hb Hz. assert (Hu : u64 (base + m_off m) = base + m_off m) by (apply Z.mod_small; exact Hb).
  destruct Hd as [specs n x t H1 H2 H3|specs n x e t z H1 H2 H3 H4 H5 H6|specs x w t H1 H2 H3]; cbn [fst snd] in *;
    (eapply y_inst_type; [exact Hm1|exact H1|]); intros s1 N1; unfold inst_tail; rewrite Hm2; cbn [declarator_tree].
  - assert (Ht : member_type t (stars n (T_IDENTIFIER x)) = (T_IDENTIFIER x, pointer_to n t)).
    { unfold member_type. replace (match stars n (T_IDENTIFIER x) with T_FN d a _ st => (d, T_FN d a t st) | _ => (stars n (T_IDENTIFIER x), t) end)
        with (stars n (T_IDENTIFIER x), t) by (destruct n; reflexivity). rewrite resolve_ptr_var. reflexivity. }
    rewrite Ht. replace (is_CTYPE (pointer_to n t)) with true by (destruct (pointer_to n t); try contradiction; reflexivity).
    rewrite Hu. eapply y_bind0; [apply y_tick|]. intros _ s2 N2 _. cbn beta.
    eapply (y_impl E _ _ _ Q Q); [auto| |apply y_map_member]. intros r s3 N3 [-> _]. eexists. split; [reflexivity|]. split; reflexivity.
  - assert (Ht : member_type t (stars n (T_ARRAY (T_IDENTIFIER x) (syntax e))) = (T_ARRAY (T_IDENTIFIER x) (syntax e), pointer_to n t)).
    { unfold member_type. replace (match stars n (T_ARRAY (T_IDENTIFIER x) (syntax e)) with T_FN d a _ st => (d, T_FN d a t st) | _ => (stars n (T_ARRAY (T_IDENTIFIER x) (syntax e)), t) end)
        with (stars n (T_ARRAY (T_IDENTIFIER x) (syntax e)), t) by (destruct n; reflexivity). rewrite resolve_ptr_array. reflexivity. }
    rewrite Ht, Hu.
    eapply y_bind0; [apply (y_array_size E rho e z (pointer_to n t) s1 Q Hq (reads_new E _ _ _ _ N1 H4) H5 H3)|].
    intros len s2 N2 ->. cbn beta.
    assert (Hlen : (scalar_width (pointer_to n t) * (Z.abs z mod 2 ^ 64)) mod 2 ^ 64 = f_size (x, pointer_to n t, Some z)).
    { unfold f_size, f_align, f_type in *. cbn [fst snd] in *. pose proof (width_range _ H3). rewrite Z.abs_eq by lia. rewrite (Z.mod_small z) by nia.
      apply Z.mod_small. nia. }
    rewrite Hlen. set (sz := f_size (x, pointer_to n t, Some z)) in *. unfold instantiate_array.
    eapply (y_bind0 E _ _ _ _ _ _ _ (fun v s' => exists q, v = T_LIVE_VAR (D_T_PTR (pointer_to n t)) q true sz /\ new_object E s2 q 16 s' /\
       unsigned_at (mem s') q 8 = base + m_off m)).
    + eapply y_bind0; [apply y_tick|]. intros _ s3 N3 _. cbn beta iota.
      apply (y_temp E _ (le_bytes 8 (base + m_off m)) (fun _ a => ret (T_LIVE_VAR (D_T_PTR (pointer_to n t)) a true sz))); [exact Hq|cbn; lia|].
      intros a s4 N4 O4 M4. apply y_ret. exists a. split; [reflexivity|]. split; [eapply new_object_l; eauto|].
      rewrite M4, unsigned_store. apply Z.mod_small. exact Hb.
    + intros v s3 N3 (q & -> & O3 & M3). cbn beta. eapply (y_impl E _ _ _ Q Q); [auto| |apply y_map_member].
      intros r s4 N4 [-> M4]. eexists. split; [reflexivity|]. split; [reflexivity|]. cbn [snd]. exists q. split; [reflexivity|].
      split; [|rewrite M4; exact M3]. eapply new_object_l; [exact N1|]. eapply new_object_l; [exact N2|]. eapply new_object_r; eauto.
  - assert (Ht : member_type t (T_BITFIELD w (T_IDENTIFIER x)) = (T_IDENTIFIER x, t)) by reflexivity.
    rewrite Ht. replace (is_CTYPE t) with true by (destruct t; try contradiction; reflexivity).
    rewrite Hu. eapply y_bind0; [apply y_tick|]. intros _ s2 N2 _. cbn beta.
    eapply (y_impl E _ _ _ Q Q); [auto| |apply y_map_member]. intros r s3 N3 [-> _]. eexists. split; [reflexivity|]. split; reflexivity.
Qed.

Lemma entry_kept s base f p e s1 s2 : member_entry E s base f p e s1 -> kept E s1 s2 -> member_entry E s base f p e s2.
Proof.
  intros [H1 H2] N. split; [exact H1|]. destruct (snd f); [|exact H2]. destruct H2 as (q & H2 & H3 & H4). exists q. split; [exact H2|].
  split; [eapply new_object_kept; eauto|]. rewrite <- H4. apply (kept_mem E); [apply N|]. destruct H3 as (H3 & _). eapply storage_sub; [exact H3|lia|lia].
Qed.
Lemma entry_later s base f p e s1 s2 : member_entry E s base f p e s1 -> only_new E s1 [] s2 -> member_entry E s base f p e s2.
Proof. intros H N. eapply entry_kept; [exact H|apply N]. Qed.
Lemma entry_earlier s base f p e s1 s2 : only_new E s [] s1 -> member_entry E s1 base f p e s2 -> member_entry E s base f p e s2.
Proof.
  intros N [H1 H2]. split; [exact H1|]. destruct (snd f); [|exact H2]. destruct H2 as (q & H2 & H3 & H4). exists q. split; [exact H2|].
  split; [eapply new_object_l; eauto|exact H4].
Qed.
Lemma table_kept s base fs ps t s1 s2 : member_table E s base s1 fs ps t -> kept E s1 s2 -> member_table E s base s2 fs ps t.
Proof. intros H N. induction H; constructor; auto. eapply entry_kept; eauto. Qed.
Lemma table_later s base fs ps t s1 s2 : member_table E s base s1 fs ps t -> only_new E s1 [] s2 -> member_table E s base s2 fs ps t.
Proof. intros H N. induction H; constructor; auto. eapply entry_later; eauto. Qed.
Lemma table_earlier s base fs ps t s1 s2 : only_new E s [] s1 -> member_table E s1 base s2 fs ps t -> member_table E s base s2 fs ps t.
Proof. intros N H. induction H; constructor; auto. eapply entry_earlier; eauto. Qed.

Lemma y_inst_all base rho lc (Q : Z -> Prop) : Q 16 -> forall ms mbs fs acc s, Forall2 member_of ms mbs -> Forall2 (describes E s rho lc) mbs fs ->
  Forall (fun m => 0 <= base + m_off m < 2 ^ 64) ms -> Forall (fun f => f_size f < 2 ^ 64) fs ->
  yields E (fun k => foldM (instantiate_struct_element E k base) acc ms) s Q []
    (fun r s' => exists tbl, r = acc ++ tbl /\ member_table E s base s' fs (map m_off ms) tbl).
Proof.
  intros Hq. induction ms as [|m ms IH]; intros mbs fs acc s Hm Hd Hb Hz.
  - inversion Hm; subst. inversion Hd; subst. cbn [foldM]. apply y_ret. exists []. rewrite app_nil_r. split; [reflexivity|constructor].
  - inversion Hm as [|? mb ? mbs' Hm1 Hm2]; subst. inversion Hd as [|? f ? fs' Hd1 Hd2]; subst. inversion Hb as [|? ? Hb1 Hb2]; subst.
    inversion Hz as [|? ? Hz1 Hz2]; subst. cbn [foldM].
    eapply y_bind0; [apply (y_inst_one base acc m mb f rho lc s Q Hq Hm1 Hd1 Hb1 Hz1)|].
    intros r s1 N1 (e & -> & He). cbn beta.
    eapply (y_impl E _ _ _ Q Q); [auto| |apply (IH mbs' fs' (acc ++ [e]) s1 Hm2)].
    + intros r s2 N2 (tbl & -> & Ht). exists (e :: tbl). rewrite <- app_assoc. split; [reflexivity|].
      cbn [map]. constructor; [eapply entry_later; eauto|eapply table_earlier; eauto].
    + eapply describes_all_sees; [apply sees_new, N1|exact Hd2].
    + exact Hb2.
    + exact Hz2.
Qed.

Lemma complete_rest s s' t k mbs ps size : same_rest s s' -> complete s t k mbs ps size -> complete s' t k mbs ps size.
Proof. intros R (c & H). exists c. rewrite (same_rest_comps s s') by exact R. exact H. Qed.

Lemma of_maps ms : forall mbs, map m_specs ms = map (fun m => CHAIN_HEAD (fst m)) mbs -> map m_decl ms = map (fun m => declarator_tree (snd m)) mbs ->
  Forall2 member_of ms mbs.
Proof.
  induction ms as [|m ms IH]; intros [|mb mbs] H1 H2; try discriminate H1; constructor; cbn [map] in *; [|apply IH]; try congruence.
  split; congruence.
Qed.

Lemma y_inst t k mbs fs ps size base rho lc s (Q : Z -> Prop) : Q 16 -> complete s t k mbs ps size -> Forall2 (describes E s rho lc) mbs fs ->
  Forall (fun p => 0 <= base + p < 2 ^ 64) ps -> Forall (fun f => f_size f < 2 ^ 64) fs ->
  yields E (fun kn => instantiate_struct E kn t base) s Q []
    (fun r s' => exists tbl, r = T_LIVE_COMPOUND t tbl base /\ member_table E s base s' fs ps tbl).
Proof.
  intros Hq HC Hd Hp Hf. unfold instantiate_struct. eapply y_bind0; [apply y_tick|]. intros _ s1 N1 _. cbn beta.
  apply (complete_rest s s1) in HC; [|apply N1]. destruct HC as (c & Hv & _ & He & _ & Hs1 & Hs2 & <-).
  apply y_get. rewrite Hv, He.
  eapply y_bind0; [apply (y_inst_all base rho lc Q Hq (cd_mem c) mbs fs [] s1)|].
  - apply of_maps; auto.
  - eapply describes_all_sees; [apply sees_new, N1|exact Hd].
  - rewrite Forall_map in Hp. exact Hp.
  - exact Hf.
  - intros r s2 N2 (tbl & -> & Ht). cbn beta. apply y_ret. exists tbl. cbn [app]. split; [reflexivity|]. eapply table_earlier; eauto.
Qed.

Lemma y_k_inst t base s Q m P : yields E (fun kn => instantiate_struct E kn t base) s Q m P -> yields E (fun kn => k_inst kn t base) s Q m P.
Proof.
  intros H Hs. destruct (H Hs) as [(n & s' & Hn & H')|(a & s' & H' & N)]; [left; exists n, s'|right; exists a, s']; split; auto; apply lim_inst, H'.
Qed.

Lemma inside_bounds size fs ps base : inside size fs ps -> Forall (fun f => 0 <= f_size f) fs -> 0 < base -> base + size <= 2 ^ 63 ->
  Forall (fun p => 0 <= base + p < 2 ^ 64) ps /\ Forall (fun f => f_size f < 2 ^ 64) fs.
Proof.
  intros H Hf Hb Hs. induction H as [|f p fs ps [H1 H2] H IH]; [split; constructor|]. inversion Hf; subst.
  destruct (IH H5). split; constructor; auto; lia.
Qed.

Lemma y_alloc_struct t k mbs fs ps size rho lc s (Q : Z -> Prop) : Q 16 -> Q size -> complete s t k mbs ps size -> Forall2 (describes E s rho lc) mbs fs ->
  inside size fs ps ->
  yields E (fun kn => alloc_struct E kn t) s Q [] (object_made E s t fs ps size).
Proof.
  intros Hq Hq' HC Hd Hi. unfold alloc_struct. apply y_get. pose proof HC as (c & Hv & _ & _ & Hsz & _). rewrite Hv, Hsz.
  apply (y_ext E _ _ (fun kn => bind (bind (malloc E size) (fun a => bind (ret tt) (fun r => bind (track_alloc E a) (fun _ => ret (a, r)))))
     (fun p => k_inst kn t (fst p)))).
  { intros kn. unfold bind, ret. destruct (malloc E size s) as [a s1| | | | | | | |]; auto.
    destruct (track_alloc E a s1) as [u s2| | | | | | | |]; reflexivity. }
  eapply y_bind0; [apply (y_alloc E unit size (fun _ _ => ret tt) s Q [] (fun _ _ _ => True) Hq')|].
  { intros a s1 _ _ _. apply y_ret. exact I. }
  intros [base u] s1 N1 (O1 & _). cbn [fst] in *. apply y_k_inst.
  assert (Hb : 0 < base /\ base + size <= 2 ^ 63) by (destruct O1 as (_ & ? & ? & _); auto).
  destruct (inside_bounds size fs ps base Hi (describes_sizes _ _ _ _ _ Hd) (proj1 Hb) (proj2 Hb)) as [B1 B2].
  eapply (y_impl E _ _ _ Q Q); [auto| |apply (y_inst t k mbs fs ps size base rho lc s1 Q Hq)].
  - intros r s2 N2 (tbl & -> & Ht). exists tbl, base, s1. do 3 (split; [auto|]). split; [apply N2|exact Ht].
  - eapply complete_rest; [apply N1|exact HC].
  - eapply describes_all_sees; [apply sees_new, N1|exact Hd].
  - exact B1.
  - exact B2.
Qed.

Lemma object_kept s t fs ps size v s1 s2 : object_made E s t fs ps size v s1 -> kept E s1 s2 -> object_made E s t fs ps size v s2.
Proof.
  intros (tbl & base & s0 & H1 & H2 & H3 & K & H4) N. exists tbl, base, s0. do 3 (split; [auto|]).
  split; [eapply kept_trans; eauto|eapply table_kept; eauto].
Qed.
Lemma object_earlier s t fs ps size v s1 s2 : only_new E s [] s1 -> object_made E s1 t fs ps size v s2 -> object_made E s t fs ps size v s2.
Proof.
  intros N (tbl & base & s0 & H1 & H2 & H3 & H4). exists tbl, base, s0. split; [exact H1|].
  split; [eapply only_new_trans0; eauto|]. split; [eapply new_object_l; eauto|exact H4].
Qed.

Lemma one_struct x t k mbs fs ps size rho lc s : complete s t k mbs ps size -> Forall2 (describes E s rho lc) mbs fs -> inside size fs ps ->
  stack s <> [] -> (forall c cs, stack s = c :: cs -> resolve_id x (c_idmap c) = NULL) ->
  (exists n s', lim E (fun kn => k_hd kn (T_IDENTIFIER x) t) s (NoMemory n s')) \/
  exists v s', lim E (fun kn => k_hd kn (T_IDENTIFIER x) t) s (Ok (T_IDENTIFIER x) s') /\ only_new E s [(x, v)] s' /\
    object_made E s t fs ps size v s'.
Proof.
  intros HC Hd Hi Hs Hx. pose proof (tick_new E s Hs) as N1. set (s1 := after_tick E s) in *. assert (Hs1 := only_new_nonempty _ _ _ _ N1).
  assert (HC1 : complete s1 t k mbs ps size) by (eapply complete_rest; [apply N1|exact HC]).
  assert (Hh : forall r, lim E (fun kn => bind (alloc_struct E kn t) (fun lc => bind (map_identifier E (T_IDENTIFIER x) lc) (fun _ => ret (T_IDENTIFIER x)))) s1 r ->
     lim E (fun kn => k_hd kn (T_IDENTIFIER x) t) s r).
  { intros r H. apply lim_hd. eapply lim_after; [|exact H]. intros kn. unfold handle_declarator.
    rewrite (bind_eq _ _ _ _ _ _ _ (tick_eq E s)). fold s1. cbn [resolve_ptr_type is_NULL orb].
    destruct HC1 as (c & Hv & _). assert (Hn : is_NULL t = false) by (destruct t; try reflexivity; discriminate Hv).
    rewrite Hn. unfold bind at 1, get. unfold is_T_DECL_COMPOUND. rewrite Hv. reflexivity. }
  destruct (y_alloc_struct t k mbs fs ps size rho lc s1 (fun _ => True) I I HC1 (describes_all_sees _ _ _ _ _ _ (sees_new _ _ _ N1) Hd) Hi Hs1)
    as [(n & s' & _ & H)|(v & s2 & H & N2 & O2)].
  { left. exists n, s'. apply Hh. apply (lim_bind_fail E _ _ _ _ _ _ H). reflexivity. }
  right. assert (N := only_new_trans0 E _ _ _ _ N1 N2).
  destruct (y_map E x v s2 (fun _ => True) (new_here E _ _ _ _ N Hx ltac:(intros [])) (only_new_nonempty _ _ _ _ N)) as [(n & s' & _ & H')|(u & s3 & H' & N3 & M3)].
  - exfalso. destruct (stack s2) as [|c cs] eqn:Es; [exact (only_new_nonempty _ _ _ _ N2 Es)|]. apply lim_const_inv in H'.
    rewrite (map_identifier_cases E x _ s2 c cs Es) in H'. destruct (is_NULL _); discriminate H'.
  - exists v, s3. split; [|split; [eapply only_new_trans0; eauto|eapply object_earlier; [exact N1|eapply object_kept; [exact O2|apply N3]]]].
    apply Hh. eapply lim_bind; [exact H|]. eapply lim_bind; [exact H'|]. apply lim_const. reflexivity.
Qed.

End Struct.
