(** Proofs about variables. *)
From Coq Require Import ZArith List String Bool Lia.
From Verif Require Import CInt CIntFacts Tree SpecResolver State Eval StepsFacts EvalInv SpecScope ScopeFacts SpecRun StuckFacts RunFacts RunRules
  SpecExpr ExprFacts SpecControl SpecStmt ControlFacts CallFacts SpecNames NameFacts SpecTypes SpecTypesFacts SpecVars.
Import ListNotations.
Local Open Scope Z_scope.
Local Open Scope m_scope.
Local Open Scope list_scope.

(** ** Numbers *)

Lemma clipped_get_si v : clipped v (mpz_get_si v).
Proof.
  unfold clipped, mpz_get_si. destruct (Z.leb_spec 0 v).
  - split; [|split; [intros _; apply Z.mod_pos_bound; lia|lia]].
    exists (- (v / 2 ^ 63)). pose proof (Z.div_mod v (2 ^ 63) ltac:(lia)). lia.
  - pose proof (Z.mod_pos_bound (- v - 1) (2 ^ 63) ltac:(lia)).
    split; [|split; [lia|intros _; lia]].
    exists ((- v - 1) / 2 ^ 63). pose proof (Z.div_mod (- v - 1) (2 ^ 63) ltac:(lia)). lia.
Qed.

Lemma clipped_small v w : - 2 ^ 63 <= v < 2 ^ 63 -> clipped v w -> w = v.
Proof. intros H ([q Hq] & H1 & H2). lia. Qed.

Lemma wraps_conv c z : wraps c z (conv c z).
Proof. exact (conv_wraps c z). Qed.

Lemma wraps_unique c z w w' : wraps c z w -> wraps c z w' -> w = w'.
Proof.
  intros [[q Hq] H1] [[q' Hq'] H2]. cbv zeta in *. 
  assert (Hw : 0 < width c) by (destruct c; reflexivity).
  assert (0 < 2 ^ (8 * width c - 1)) by (apply Z.pow_pos_nonneg; lia).
  assert (2 ^ (8 * width c) = 2 * 2 ^ (8 * width c - 1)) by (rewrite <- Z.pow_succ_r by lia; f_equal; lia).
  assert (q = q') by (destruct (signed c); nia). subst. reflexivity.
Qed.

Lemma value_at_mem s s' c a : mem s' = mem s -> value_at s' c a = value_at s c a.
Proof. apply value_at_gc. Qed.

(** ** Storing *)

Lemma store_storage E s a bytes n : storage E s a n -> Z.of_nat (List.length bytes) = n ->
  store a bytes s = Ok tt (set_mem (fun m => store_bytes m a bytes) s).
Proof. intros H <-. unfold store. rewrite (storage_valid E) by exact H. reflexivity. Qed.

Lemma only_writes_store E s a bytes n : Z.of_nat (List.length bytes) = n ->
  only_writes E s a n (set_mem (fun m => store_bytes m a bytes) s).
Proof.
  intros <-. split.
  - intros x Hx. cbn. apply store_bytes_out. lia.
  - replace (set_mem (fun _ => mem (set_mem (fun m => store_bytes m a bytes) s)) s)
      with (set_mem (fun m => store_bytes m a bytes) s) by reflexivity. apply gc_only_refl.
Qed.

Lemma storage_mem E s a n f : storage E (set_mem f s) a n <-> storage E s a n.
Proof. reflexivity. Qed.

Lemma only_writes_storage E s a n s' b m : only_writes E s a n s' -> storage E s b m -> storage E s' b m.
Proof. intros [_ [_ [H _]]] Hb. apply H. exact Hb. Qed.

Lemma only_writes_gc_l E s s1 a n s2 : only_gc E s s1 -> only_writes E s1 a n s2 -> only_writes E s a n s2.
Proof.
  intros [G [Hs Hs']] [H1 [G' [H2 H2']]]. split.
  - intros x Hx. rewrite H1 by exact Hx. rewrite (sg_mem _ _ G). reflexivity.
  - split; [|split].
    + destruct G, G'. constructor; cbn in *; try congruence. intros b Hb. auto.
    + intros b m Hb. apply H2. apply storage_mem. apply Hs. exact Hb.
    + intros b Hb. apply H2'. apply (used_gc E s s1 b G (Hs' b) Hb).
Qed.
Lemma only_writes_gc_r E s a n s1 s2 : only_writes E s a n s1 -> only_gc E s1 s2 -> only_writes E s a n s2.
Proof.
  intros [H1 [G [H2 H2']]] [G' [Hs Hs']]. split.
  - intros x Hx. rewrite <- H1 by exact Hx. rewrite (sg_mem _ _ G'). reflexivity.
  - split; [|split].
    + destruct G, G'. constructor; cbn in *; try congruence. intros b Hb. auto.
    + intros b m Hb. apply Hs, H2. exact Hb.
    + intros b Hb. apply Hs'. exact (used_gc E _ s1 b G (H2' b) Hb).
Qed.

Lemma value_at_store s c a z : value_at (set_mem (fun m => store_bytes m a (bytes_c c z)) s) c a = conv c z.
Proof. rewrite value_at_load. cbn. apply load_store_c. Qed.

Lemma bytes_c_len c z : Z.of_nat (List.length (bytes_c c z)) = width c.
Proof. exact (bytes_c_length c z). Qed.

(** ** Assignment *)

Section Assign.
Variable E : env.

Lemma lim_assign l lhs rhs s left s1 right s2 r : plain s l lhs ->
  runs E s lhs (Ok left s1) -> runs E s1 rhs (Ok right s2) ->
  lim E (fun _ => match left with
  | T_LIVE_VAR type a _ _ =>
      match type with
      | NULL => ub
      | D_T c => if is_intty c then assign_integer E type a right
                 else match c with
                      | D_T_LONGDOUBLE => die
                      | _ => assign_float E type a right
                      end
      | D_T_PTR _ => assign_ptr E a right
      | _ => die
      end ;; ret right
  | _ => die
  end) s2 r ->
  lim E (fun k => evaluate_1 E k (T_ASSIGN l lhs rhs)) s r.
Proof.
  intros Hp H1 H2 H3. cbn [evaluate_1]. unfold eval_assign.
  eapply lim_bind; [apply lim_const; reflexivity|]. cbn beta. unfold assign_lhs.
  assert (Hq : match zfind l (ov_asn s) with Some v => v | None => lhs end = lhs) by (destruct Hp as [-> | ->]; reflexivity).
  rewrite Hq.
  eapply lim_bind; [apply lim_ev; exact H1|]. eapply lim_bind; [apply lim_ev; exact H2|]. exact H3.
Qed.

Lemma assign_int s l lhs rhs c a arr n s1 v s2 : plain s l lhs ->
  runs E s lhs (Ok (T_LIVE_VAR (D_T c) a arr n) s1) -> integer_type c = true ->
  runs E s1 rhs (Ok (T_INTEGER v) s2) -> storage E s2 a (width c) ->
  exists s3 w, runs E s (T_ASSIGN l lhs rhs) (Ok (T_INTEGER v) s3) /\ only_writes E s2 a (width c) s3 /\
    clipped v w /\ wraps c w (value_at s3 c a).
Proof.
  intros Hp H1 Hc H2 Hs. exists (set_mem (fun m => store_bytes m a (bytes_c c (mpz_get_si v))) s2), (mpz_get_si v).
  split; [|split; [apply only_writes_store, bytes_c_len|split; [apply clipped_get_si|]]].
  - apply lim_runs; [discriminate|]. eapply lim_assign; eauto. apply lim_const. intros _.
    change (is_intty c) with (integer_type c). rewrite Hc. unfold assign_integer, bind, ret.
    change (is_intty c) with (integer_type c). rewrite Hc.
    rewrite (store_storage E _ _ _ (width c)) by (auto using bytes_c_len). reflexivity.
  - rewrite value_at_store. apply wraps_conv.
Qed.

(** From another variable: eight bytes are read. *)
Lemma assign_var s l lhs rhs c a arr n s1 t b arr' n' s2 : plain s l lhs ->
  runs E s lhs (Ok (T_LIVE_VAR (D_T c) a arr n) s1) -> integer_type c = true ->
  runs E s1 rhs (Ok (T_LIVE_VAR t b arr' n') s2) -> storage E s2 a (width c) -> storage E s2 b 8 ->
  exists s3, runs E s (T_ASSIGN l lhs rhs) (Ok (T_LIVE_VAR t b arr' n') s3) /\ only_writes E s2 a (width c) s3 /\
    wraps c (unsigned_at (mem s2) b 8) (value_at s3 c a).
Proof.
  intros Hp H1 Hc H2 Hs Hb.
  exists (set_mem (fun m => store_bytes m a (bytes_c c (smod 64 (le_load (mem s2) b 8)))) s2).
  split; [|split; [apply only_writes_store, bytes_c_len|]].
  - apply lim_runs; [discriminate|]. eapply lim_assign; eauto. apply lim_const. intros _.
    change (is_intty c) with (integer_type c). rewrite Hc. unfold assign_integer, bind.
    rewrite load_valid by (apply (storage_valid E), Hb). cbn [ret]. change (Z.to_nat 8) with 8%nat.
    change (is_intty c) with (integer_type c). rewrite Hc. unfold ret.
    rewrite (store_storage E _ _ _ (width c)) by (auto using bytes_c_len). reflexivity.
  - rewrite value_at_store. change (unsigned_at (mem s2) b 8) with (le_load (mem s2) b 8).
    destruct (smod_cong 64 (le_load (mem s2) b 8) ltac:(lia)) as [q ->].
    destruct (wraps_conv c (le_load (mem s2) b 8 + q * 2 ^ 64)) as [[p Hp'] Hr]. split; [|exact Hr].
    exists (p + q * 2 ^ (64 - 8 * width c)). rewrite Hp'. 
    replace (2 ^ 64) with (2 ^ (64 - 8 * width c) * 2 ^ (8 * width c)); [ring|].
    rewrite <- Z.pow_add_r; [f_equal; lia| |]; destruct c; try discriminate; cbn; lia.
Qed.

(** ** Increment and decrement *)

Lemma pow_split c : 2 ^ (8 * width c) = 256 ^ width c.
Proof. symmetry. apply pow256. destruct c; cbn; lia. Qed.

Lemma conv_load c m a : conv c (conv c (le_load m a (Z.to_nat (csize c)))) = load_c m a c.
Proof. rewrite conv_conv. reflexivity. Qed.

Lemma live_var_add_int c a d s : integer_type c = true -> storage E s a (width c) ->
  live_var_add E (D_T c) a d s =
  Ok tt (set_mem (fun m => store_bytes m a (bytes_c c (value_at s c a + d))) s).
Proof.
  intros Hc Hs. unfold live_var_add, bind. rewrite load_valid by (apply (storage_valid E), Hs).
  change (is_intty c) with (integer_type c). rewrite Hc.
  replace (conv c (le_load (mem s) a (Z.to_nat (csize c)))) with (value_at s c a) by apply value_at_load.
  rewrite (store_storage E _ _ _ (width c)) by (auto using bytes_c_len). reflexivity.
Qed.

Lemma make_int_var c a s : integer_type c = true -> storage E s a (width c) ->
  make_int_from_live_var E (D_T c) a s = Ok (T_INTEGER (as_long (value_at s c a))) (after_tick E s).
Proof.
  intros Hc Hs. exact (make_int_number E s (D_T c) a false 0 _ (number_var E s c a false 0 Hc Hs)).
Qed.

Lemma after_tick_set_mem f s : value_at (after_tick E (set_mem f s)) = value_at (set_mem f s).
Proof. reflexivity. Qed.

Lemma step_pre e s c a arr n s1 (d : Z) (inc : bool) : d = (if inc then 1 else -1) ->
  runs E s e (Ok (T_LIVE_VAR (D_T c) a arr n) s1) -> integer_type c = true -> storage E s1 a (width c) ->
  exists s2, runs E s ((if inc then T_INC else T_DEC) e) (Ok (T_INTEGER (as_long (value_at s2 c a))) s2) /\
    only_writes E s1 a (width c) s2 /\ wraps c (value_at s1 c a + d) (value_at s2 c a).
Proof.
  intros Hd H Hc Hs. set (s1' := set_mem (fun m => store_bytes m a (bytes_c c (value_at s1 c a + d))) s1).
  assert (Hv : value_at s1' c a = conv c (value_at s1 c a + d)) by apply value_at_store.
  exists (after_tick E s1'). split; [|split].
  - apply lim_runs; [discriminate|].
    apply (lim_ext E _ _ (fun k => eval_pre E k d e)); [intros k; destruct inc; subst d; reflexivity|].
    unfold eval_pre. eapply lim_bind; [apply lim_ev; exact H|]. cbn beta iota.
    eapply lim_bind; [apply lim_const; intros _; apply live_var_add_int; auto|]. cbn beta.
    apply lim_const. intros _. exact (make_int_var c a s1' Hc Hs).
  - eapply only_writes_gc_r; [apply only_writes_store, bytes_c_len|apply gc_only_tick].
  - change (value_at (after_tick E s1') c a) with (value_at s1' c a). rewrite Hv. apply wraps_conv.
Qed.

Lemma step_post e s c a arr n s1 (d : Z) (inc : bool) : d = (if inc then 1 else -1) ->
  runs E s e (Ok (T_LIVE_VAR (D_T c) a arr n) s1) -> integer_type c = true -> storage E s1 a (width c) ->
  exists s2, runs E s ((if inc then T_P_INC else T_P_DEC) e) (Ok (T_INTEGER (as_long (value_at s1 c a))) s2) /\
    only_writes E s1 a (width c) s2 /\ wraps c (value_at s1 c a + d) (value_at s2 c a).
Proof.
  intros Hd H Hc Hs.
  exists (set_mem (fun m => store_bytes m a (bytes_c c (value_at s1 c a + d))) (after_tick E s1)). split; [|split].
  - apply lim_runs; [discriminate|].
    apply (lim_ext E _ _ (fun k => eval_post E k d e)); [intros k; destruct inc; subst d; reflexivity|].
    unfold eval_post. eapply lim_bind; [apply lim_ev; exact H|]. cbn beta iota.
    eapply lim_bind; [apply lim_const; intros _; apply make_int_var; auto|]. cbn beta.
    eapply lim_bind; [apply lim_const; intros _; apply live_var_add_int; [exact Hc|apply storage_tick, Hs]|].
    apply lim_const. reflexivity.
  - eapply only_writes_gc_l; [apply gc_only_tick|apply only_writes_store, bytes_c_len].
  - rewrite value_at_store. apply wraps_conv.
Qed.

(** Pointers. *)
Lemma live_var_add_ptr t a d s : storage E s a 8 ->
  live_var_add E (D_T_PTR t) a d s =
  Ok tt (set_mem (fun m => store_bytes m a (le_bytes 8 (unsigned_at (mem s) a 8 + d))) s).
Proof.
  intros Hs. unfold live_var_add, bind. rewrite load_valid by (apply (storage_valid E), Hs).
  rewrite (store_storage E _ _ _ 8) by auto. reflexivity.
Qed.

Lemma make_int_ptr t a s : storage E s a 8 ->
  make_int_from_live_var E (D_T_PTR t) a s = Ok (T_INTEGER (as_long (unsigned_at (mem s) a 8))) (after_tick E s).
Proof. intros Hs. exact (make_int_number E s (D_T_PTR t) a false 0 _ (number_ptr E s t a false 0 Hs)). Qed.

Lemma unsigned_store m a z : unsigned_at (store_bytes m a (le_bytes 8 z)) a 8 = z mod 2 ^ 64.
Proof. exact (le_load_store 8 m a z). Qed.

Lemma step_ptr e s t a arr n s1 (inc pre : bool) :
  runs E s e (Ok (T_LIVE_VAR (D_T_PTR t) a arr n) s1) -> storage E s1 a 8 ->
  exists s2, runs E s ((if pre then if inc then T_INC else T_DEC else if inc then T_P_INC else T_P_DEC) e)
      (Ok (T_INTEGER (as_long (unsigned_at (mem (if pre then s2 else s1)) a 8))) s2) /\
    only_writes E s1 a 8 s2 /\
    unsigned_at (mem s2) a 8 = (unsigned_at (mem s1) a 8 + (if inc then 1 else -1)) mod 2 ^ 64.
Proof.
  intros H Hs. set (d := if inc then 1 else -1). destruct pre.
  - set (s1' := set_mem (fun m => store_bytes m a (le_bytes 8 (unsigned_at (mem s1) a 8 + d))) s1).
    exists (after_tick E s1'). split; [|split].
    + apply lim_runs; [discriminate|].
      apply (lim_ext E _ _ (fun k => eval_pre E k d e)); [intros k; destruct inc; reflexivity|].
      unfold eval_pre. eapply lim_bind; [apply lim_ev; exact H|]. cbn beta iota.
      eapply lim_bind; [apply lim_const; intros _; apply live_var_add_ptr; auto|]. cbn beta.
      apply lim_const. intros _. exact (make_int_ptr t a s1' Hs).
    + eapply only_writes_gc_r; [apply (only_writes_store E s1 a (le_bytes 8 (unsigned_at (mem s1) a 8 + d)) 8); reflexivity|apply gc_only_tick].
    + apply unsigned_store.
  - exists (set_mem (fun m => store_bytes m a (le_bytes 8 (unsigned_at (mem s1) a 8 + d))) (after_tick E s1)).
    split; [|split].
    + apply lim_runs; [discriminate|].
      apply (lim_ext E _ _ (fun k => eval_post E k d e)); [intros k; destruct inc; reflexivity|].
      unfold eval_post. eapply lim_bind; [apply lim_ev; exact H|]. cbn beta iota.
      eapply lim_bind; [apply lim_const; intros _; apply make_int_ptr; auto|]. cbn beta.
      eapply lim_bind; [apply lim_const; intros _; apply live_var_add_ptr, storage_tick, Hs|].
      apply lim_const. reflexivity.
    + eapply only_writes_gc_l; [apply gc_only_tick|apply (only_writes_store E _ a (le_bytes 8 (unsigned_at (mem s1) a 8 + d)) 8); reflexivity].
    + apply unsigned_store.
Qed.

(** ** New objects *)

Lemma storage_tick' s a n : storage E s a n -> storage E (after_tick E s) a n.
Proof. apply storage_tick. Qed.

(** The state after make_live_var. *)
Definition with_object (s : state) (n : Z) : state :=
  let s1 := after_tick E s in
  let a := e_malloc E s1 n in
  let s2 := after_tick E (set_blocks (fun bs => mkblock a n false :: bs) s1) in
  set_blocks (map (mark a)) (with_top (c_set_allocs (fun l => l ++ [a])) s2).

Lemma make_live_var_cases s : stack s <> [] ->
  (malloc_ok E (after_tick E s) 16 /\ make_live_var_addr E s = Ok (e_malloc E (after_tick E s) 16) (with_object s 16)) \/
  (make_live_var_addr E s = NoMemory 16 (after_tick E s)).
Proof.
  intros Hs. set (s1 := after_tick E s). destruct ((0 <? e_malloc E s1 16) && (e_malloc E s1 16 + Z.max 16 1 <=? 2 ^ 63) &&
    forallb (disjoint_blocks (e_malloc E s1 16) 16) (blocks s1)) eqn:Hm; [left|right].
  - assert (Hmm : malloc E 16 s1 = Ok (e_malloc E s1 16) (set_blocks (fun bs => mkblock (e_malloc E s1 16) 16 false :: bs) s1))
      by (unfold malloc; rewrite Hm; reflexivity).
    apply andb_true_iff in Hm as [Hm H3]. apply andb_true_iff in Hm as [H1 H2].
    apply Z.ltb_lt in H1. apply Z.leb_le in H2. split; [split; [exact H1|split; [exact H2|exact H3]]|].
    unfold make_live_var_addr. rewrite (bind_eq _ _ _ _ _ _ _ (tick_eq E s)). fold s1.
    rewrite (bind_eq _ _ _ _ _ _ _ Hmm). unfold track_alloc.
    unfold bind at 1. rewrite (bind_eq _ _ _ _ _ _ _ (tick_eq E _)).
    match goal with |- context [upd_top ?f] =>
      match goal with |- context [after_tick E (set_blocks ?g s1)] =>
        rewrite (bind_eq _ _ _ _ _ _ _ (upd_top_with f (after_tick E (set_blocks g s1)) Hs)) end end.
    reflexivity.
  - unfold make_live_var_addr. rewrite (bind_eq _ _ _ _ _ _ _ (tick_eq E s)). fold s1. unfold bind, malloc.
    rewrite Hm. reflexivity.
Qed.

Lemma with_object_gains s a : stack s <> [] -> malloc_ok E (after_tick E s) 16 -> a = e_malloc E (after_tick E s) 16 ->
  gains E s [] a (with_object s 16) /\ mem (with_object s 16) = mem s.
Proof.
  intros Hs (M1 & M2 & M3) Ha. rewrite <- Ha in *. split; [|reflexivity].
  destruct (stack s) as [|c cs] eqn:Hst; [congruence|].
  assert (Hstk : stack (with_object s 16) = scope_with c [] a :: cs).
  { unfold with_object, with_top. cbn [stack set_blocks set_stack]. change (stack (after_tick E (set_blocks
      (fun bs => mkblock (e_malloc E (after_tick E s) 16) 16 false :: bs) (after_tick E s)))) with (stack s).
    rewrite Hst, <- Ha. unfold scope_with. rewrite app_nil_r. reflexivity. }
  assert (Hroots : forall x, In x (roots E s) \/ x = a -> In x (roots E (with_object s 16))).
  { intros x Hx. unfold roots in *. rewrite Hstk. rewrite Hst in Hx. rewrite !in_app_iff in *.
    cbn [flat_map] in *. rewrite !in_app_iff in *. cbn [scope_with c_allocs]. rewrite in_app_iff. cbn [In].
    destruct Hx as [[[Hx|Hx]|Hx]|Hx]; auto. }
  set (s2 := set_blocks (fun bs => mkblock a 16 false :: bs) (after_tick E s)) in *.
  assert (Hblocks : blocks (with_object s 16) = map (mark a) (blocks (after_tick E s2)))
    by (unfold with_object; cbv zeta; rewrite <- Ha; reflexivity).
  assert (Hnew : In (mkblock a 16 true) (blocks (with_object s 16))).
  { rewrite Hblocks. apply in_map_iff. exists (mkblock a 16 false). split; [unfold mark; cbn; rewrite Z.eqb_refl; reflexivity|].
    cbn [after_tick blocks set_ticks set_closures set_blocks]. apply filter_In. split; [left; reflexivity|]. reflexivity. }
  assert (Hdis : forall b, In b (blocks (after_tick E s)) -> disjoint_blocks a 16 b = true)
    by (intros b Hb; eapply forallb_forall in M3; eauto).
  split; [exists c, cs; auto|]. split; [split; [|split; [lia|split; [lia|]]]|repeat split].
  - exists (mkblock a 16 true). cbn. repeat split; auto; try lia. 
  - intros a' n' Hn (b & Hb & H1 & H2 & H3).
    assert (Hb1 : In b (blocks (after_tick E s))).
    { cbn [after_tick blocks set_ticks set_closures set_blocks]. apply filter_In. split; auto. unfold collected.
      destruct H3 as [H3|H3]; [rewrite H3; reflexivity|]. rewrite (proj2 (zmem_In _ _) H3). rewrite andb_false_r. reflexivity. }
    assert (Hd := Hdis b Hb1). unfold disjoint_blocks in Hd. apply orb_true_iff in Hd. rewrite !Z.leb_le in Hd.
    assert (Hne : b_base b <> a) by lia.
    split; [|lia]. exists b. split.
    + rewrite Hblocks. apply in_map_iff. exists b. split; [unfold mark; destruct (Z.eqb_spec (b_base b) a); [lia|reflexivity]|].
      cbn [after_tick blocks set_ticks set_closures set_blocks]. apply filter_In. split; [right; exact Hb1|].
      unfold collected. destruct H3 as [H3|H3]; [rewrite H3; reflexivity|].
      replace (zmem (b_base b) (roots E s2)) with true; [rewrite andb_false_r; reflexivity|].
      symmetry. apply zmem_In. exact H3.
    + split; [exact H1|]. split; [exact H2|]. destruct H3 as [H3|H3]; [left; exact H3|right]. apply Hroots. auto.
Qed.

End Assign.

(** ** Declarations *)

Section Declare.
Variable E : env.

Lemma gains_gc_r s m a s1 s2 : gains E s m a s1 -> only_gc E s1 s2 -> gains E s m a s2.
Proof.
  intros ((c & cs & H1 & H2) & (S1 & S2 & S3 & S4) & R) [[] [G _]]. split; [exists c, cs; split; congruence|].
  split; [split; [apply G; exact S1|split; [exact S2|split; [exact S3|]]]|].
  - intros a' n' Hn H. destruct (S4 a' n' Hn H). split; auto.
  - destruct R as (R1&R2&R3&R4&R5&R6&R7&R8&R9). repeat split; congruence.
Qed.
Lemma gains_gc_l s m a s1 s2 : only_gc E s s1 -> gains E s1 m a s2 -> gains E s m a s2.
Proof.
  intros [[] [G _]] ((c & cs & H1 & H2) & (S1 & S2 & S3 & S4) & R). split; [exists c, cs; split; congruence|].
  split; [split; [exact S1|split; [exact S2|split; [exact S3|]]]|].
  - intros a' n' Hn H. apply S4; auto.
  - destruct R as (R1&R2&R3&R4&R5&R6&R7&R8&R9). repeat split; congruence.
Qed.
Lemma declared_gc_r s x t a s1 s2 : declared E s x t a s1 -> only_gc E s1 s2 -> declared E s x t a s2.
Proof. intros [H1 H2] H. split; [eapply gains_gc_r; eauto|]. destruct H as [[] _]. congruence. Qed.
Lemma declared_gc_l s x t a s1 s2 : only_gc E s s1 -> declared E s1 x t a s2 -> declared E s x t a s2.
Proof. intros H [H1 H2]. split; [eapply gains_gc_l; eauto|]. destruct H as [[] _]. congruence. Qed.

(** The state after map_identifier. *)
Definition mapped (x : string) (v : tree) (s : state) : state :=
  with_top (c_set_idmap (fun m => m ++ [(x, v)])) (after_tick E s).

Lemma map_identifier_cases x v s c cs : stack s = c :: cs ->
  map_identifier E (T_IDENTIFIER x) v s =
  if is_NULL (resolve_id x (c_idmap c)) then Ok tt (mapped x v s) else Die s.
Proof.
  intros Hs. unfold map_identifier, resolve_identifier_current, bind, top, ret. rewrite Hs.
  assert (H : map_identifer_cur E (T_IDENTIFIER x) v s = Ok tt (mapped x v s)).
  { unfold map_identifer_cur. rewrite (bind_eq _ _ _ _ _ _ _ (tick_eq E s)).
    apply upd_top_with. cbn. congruence. }
  destruct (resolve_id x (c_idmap c)); cbn [is_NULL]; auto.
Qed.

Lemma mapped_gains s a x v s1 : gains E s [] a s1 -> gains E s [(x, v)] a (mapped x v s1).
Proof.
  intros H. assert (G := gains_gc_r _ _ _ _ _ H (gc_only_tick E s1)). clear H.
  unfold mapped. set (s2 := after_tick E s1) in *. clearbody s2. clear s1.
  destruct G as ((c & cs & H1 & H2) & (S1 & S2 & S3 & S4) & R).
  assert (Hroots : forall y, In y (roots E s2) -> In y (roots E (with_top (c_set_idmap (fun m => m ++ [(x, v)])) s2))).
  { intros y. unfold roots, with_top. cbn [stack set_stack incl statics]. rewrite H2. cbn [flat_map c_set_idmap c_allocs]. auto. }
  assert (Hst : forall b n, storage E s2 b n -> storage E (with_top (c_set_idmap (fun m => m ++ [(x, v)])) s2) b n).
  { intros b n (bl & B1 & B2 & B3 & B4). exists bl. split; [exact B1|]. split; [exact B2|]. split; [exact B3|].
    destruct B4 as [B4|B4]; [left; exact B4|right; apply Hroots, B4]. }
  split; [exists c, cs; split; [exact H1|]|split; [split; [apply Hst, S1|split; [exact S2|split; [exact S3|]]]|exact R]].
  - unfold with_top. cbn [stack set_stack]. rewrite H2. unfold scope_with, c_set_idmap. cbn. rewrite app_nil_r. reflexivity.
  - intros a' n' Hn H. destruct (S4 a' n' Hn H). split; auto.
Qed.

Definition new_var (x : string) (t : tree) (s : state) : state :=
  mapped x (live_var t (e_malloc E (after_tick E s) 16)) (with_object E s 16).

Lemma resolve_ptr_stars n x : forall t, resolve_ptr_type (stars n (T_IDENTIFIER x)) t = (T_IDENTIFIER x, pointer_to n t).
Proof.
  assert (H : forall n t, pointer_to n (D_T_PTR t) = D_T_PTR (pointer_to n t))
    by (clear; induction n; intros t; cbn; congruence).
  induction n; intros t; cbn; auto. rewrite IHn, H. reflexivity.
Qed.

Lemma scalar_pointer_to n t : scalar t -> scalar (pointer_to n t).
Proof. destruct n; auto. intros _. exact I. Qed.
Lemma scalar_not_null t : scalar t -> is_NULL t = false.
Proof. destruct t; cbn; tauto. Qed.
Lemma scalar_not_comp s t : scalar t -> is_T_DECL_COMPOUND s t = false.
Proof. destruct t; cbn; tauto. Qed.
Lemma scalar_not_incomp s t : scalar t -> is_E_INCOMP_TYPE s t = false.
Proof. destruct t; cbn; tauto. Qed.

(** handle_declarator on a variable. *)
Lemma declare_var k n x t s c cs : stack s = c :: cs -> scalar t ->
  handle_declarator E k (stars n (T_IDENTIFIER x)) t s = NoMemory 16 (after_tick E (after_tick E s)) \/
  (if is_NULL (resolve_id x (c_idmap c))
   then exists a s', handle_declarator E k (stars n (T_IDENTIFIER x)) t s = Ok (T_IDENTIFIER x) s' /\
          declared E s x (pointer_to n t) a s' /\ forall k', handle_declarator E k' (stars n (T_IDENTIFIER x)) t s = Ok (T_IDENTIFIER x) s'
   else exists s', forall k', handle_declarator E k' (stars n (T_IDENTIFIER x)) t s = Die s').
Proof.
  intros Hs Ht. set (t' := pointer_to n t). assert (Ht' : scalar t') by (apply scalar_pointer_to, Ht).
  set (s1 := after_tick E s).
  assert (He : forall k, handle_declarator E k (stars n (T_IDENTIFIER x)) t s =
     bind (make_live_var_addr E) (fun a => bind (map_identifier E (T_IDENTIFIER x) (live_var t' a)) (fun _ => ret (T_IDENTIFIER x))) s1).
  { intros k0. unfold handle_declarator. rewrite (bind_eq _ _ _ _ _ _ _ (tick_eq E s)). fold s1.
    rewrite resolve_ptr_stars. fold t'. cbn [is_NULL]. rewrite scalar_not_null by exact Ht'. cbn [orb].
    unfold bind at 1, get. rewrite scalar_not_comp by exact Ht'. cbn [andb].
    assert (Hd : declare_other E k0 (T_IDENTIFIER x) t' s1 = bind (make_live_var_addr E) (fun a => bind (map_identifier E (T_IDENTIFIER x) (live_var t' a)) (fun _ => ret (T_IDENTIFIER x))) s1).
    { unfold declare_other, make_and_map_live_var, bind, get. rewrite scalar_not_incomp by exact Ht'.
      destruct (make_live_var_addr E s1); reflexivity. }
    destruct t'; try contradiction; exact Hd. }
  assert (Hs1 : stack s1 = c :: cs) by exact Hs.
  destruct (make_live_var_cases E s1) as [[Hm Hv]|Hv]; [congruence| |].
  - right. destruct (with_object_gains E s1 _ ltac:(congruence) Hm eq_refl) as [Hg Hmem].
    assert (Hstk : exists c', stack (with_object E s1 16) = c' :: cs /\ c_idmap c' = c_idmap c).
    { destruct Hg as ((c0 & cs0 & H1 & H2) & _). rewrite Hs1 in H1. inversion H1; subst.
      rewrite H2. eexists. split; [reflexivity|]. cbn. apply app_nil_r. }
    destruct Hstk as (c' & Hstk & Hc').
    assert (He' : forall k, handle_declarator E k (stars n (T_IDENTIFIER x)) t s =
      if is_NULL (resolve_id x (c_idmap c)) then Ok (T_IDENTIFIER x) (new_var x t' s1) else Die (with_object E s1 16)).
    { intros k0. rewrite He, (bind_eq _ _ _ _ _ _ _ Hv). unfold bind. rewrite (map_identifier_cases _ _ _ _ _ Hstk), Hc'.
      destruct (is_NULL _); reflexivity. }
    destruct (is_NULL (resolve_id x (c_idmap c))) eqn:Hn.
    + exists (e_malloc E (after_tick E s1) 16), (new_var x t' s1). split; [apply He'|]. split; [|exact He'].
      eapply declared_gc_l; [apply gc_only_tick|]. split; [apply mapped_gains, Hg|]. exact Hmem.
    + exists (with_object E s1 16). exact He'.
  - left. rewrite He. unfold bind. rewrite Hv. reflexivity.
Qed.

Lemma not_storage_class l : no_storage_class l ->
  chain_has T_TYPEDEF (CHAIN_HEAD (map T_SPEC l)) = false /\ chain_has T_EXTERN (CHAIN_HEAD (map T_SPEC l)) = false /\
  chain_has T_STATIC (CHAIN_HEAD (map T_SPEC l)) = false.
Proof.
  intros (H1 & H2 & H3). unfold chain_has. cbn [chain_elems].
  assert (H : forall sp, ~ In sp l -> sp = T_TYPEDEF \/ sp = T_EXTERN \/ sp = T_STATIC ->
    existsb (fun t => match t, sp with
                    | T_SPEC T_TYPEDEF, T_TYPEDEF => true
                    | T_SPEC T_EXTERN, T_EXTERN => true
                    | T_SPEC T_STATIC, T_STATIC => true
                    | _, _ => false
                    end) (map T_SPEC l) = false).
  { clear. intros sp Hn Hsp. induction l as [|y l IH]; cbn [map existsb]; auto. rewrite IH by (cbn in Hn; tauto).
    rewrite orb_false_r. assert (y <> sp) by (intros ->; apply Hn; left; reflexivity).
    destruct Hsp as [->|[->| ->]]; destruct y; congruence. }
  split; [exact (H T_TYPEDEF H1 ltac:(auto))|split; [exact (H T_EXTERN H2 ltac:(auto))|exact (H T_STATIC H3 ltac:(auto))]].
Qed.

(** eval_decl with a scalar type. *)
Lemma eval_decl_scalar k l specs t decls s : names_type specs t -> scalar t -> no_storage_class specs -> is_NULL decls = false ->
  eval_decl E k l (CHAIN_HEAD (map T_SPEC specs)) decls s = each_decl (fun d => k_hd k d t) decls (after_tick E s).
Proof.
  intros Hn Ht Hc Hd. unfold eval_decl, resolve_specs. unfold bind at 1.
  rewrite (bind_eq _ _ _ _ _ _ _ (tick_eq E s)). rewrite (proj2 (resolve_type specs t) Hn).
  cbn [ret]. unfold ret at 1. unfold bind at 1, get. rewrite Hd.
  destruct (not_storage_class specs Hc) as (-> & -> & ->).
  rewrite scalar_not_comp by exact Ht.
  assert (He : (is_T_IDENTIFIER t || false || is_T_ENUMERATOR t)%bool = false) by (destruct t; try contradiction; reflexivity).
  rewrite He. unfold bind, ret. destruct decls; try reflexivity. discriminate.
Qed.

Lemma lim_decl l specs t decls s r : zfind l (statics s) = None -> names_type specs t -> scalar t -> no_storage_class specs ->
  is_NULL decls = false ->
  lim E (fun k => each_decl (fun d => k_hd k d t) decls) (after_tick E s) r ->
  lim E (fun k => evaluate_1 E k (T_DECL l (CHAIN_HEAD (map T_SPEC specs)) decls)) s r.
Proof.
  intros Hl Hn Ht Hc Hd [n H]. exists n. intros m Hm. rewrite <- (H m Hm). cbn [evaluate_1]. rewrite Hl.
  apply eval_decl_scalar; auto.
Qed.

Lemma lim_var n x t s c cs : stack s = c :: cs -> scalar t ->
  lim E (fun k => k_hd k (stars n (T_IDENTIFIER x)) t) s (NoMemory 16 (after_tick E (after_tick E s))) \/
  (if is_NULL (resolve_id x (c_idmap c))
   then exists a s', lim E (fun k => k_hd k (stars n (T_IDENTIFIER x)) t) s (Ok (T_IDENTIFIER x) s') /\
          declared E s x (pointer_to n t) a s'
   else exists s', lim E (fun k => k_hd k (stars n (T_IDENTIFIER x)) t) s (Die s')).
Proof.
  intros Hs Ht. destruct (declare_var (K E 0) n x t s c cs Hs Ht) as [H|H].
  - left. apply lim_hd. apply lim_const. intros k. destruct (declare_var k n x t s c cs Hs Ht) as [H'|H']; [exact H'|].
    exfalso. destruct (is_NULL _); [destruct H' as (a & s' & _ & _ & H')|destruct H' as (s' & H')];
      rewrite (H' (K E 0)) in H; discriminate H.
  - right. destruct (is_NULL _).
    + destruct H as (a & s' & _ & Hd & H). exists a, s'. split; [apply lim_hd, lim_const; exact H|exact Hd].
    + destruct H as (s' & H). exists s'. apply lim_hd, lim_const. exact H.
Qed.

Lemma declared_stack s x t a s' c cs : declared E s x t a s' -> stack s = c :: cs ->
  exists c', stack s' = c' :: cs /\ c_idmap c' = c_idmap c ++ [(x, T_LIVE_VAR t a false 0)].
Proof.
  intros [((c0 & cs0 & H1 & H2) & _) _] Hs. rewrite Hs in H1. inversion H1; subst. eexists. split; [exact H2|reflexivity].
Qed.

Lemma resolve_app_other x y v m : x <> y -> resolve_id x (m ++ [(y, v)]) = resolve_id x m.
Proof.
  intros Hn. induction m as [|[z t] m IH]; cbn.
  - destruct (String.eqb_spec y x); congruence.
  - destruct (String.eqb z x); auto.
Qed.

Lemma declare_all ds : forall init t s c cs, stack s = c :: cs -> scalar t -> NoDup (map snd ds) ->
  (forall x, In x (map snd ds) -> resolve_id x (c_idmap c) = NULL) ->
  (exists s', lim E (fun k => foldM (fun _ d => k_hd k d t) init (map (fun d => stars (fst d) (T_IDENTIFIER (snd d))) ds)) s (NoMemory 16 s')) \/
  exists s', lim E (fun k => foldM (fun _ d => k_hd k d t) init (map (fun d => stars (fst d) (T_IDENTIFIER (snd d))) ds)) s
     (Ok (last (map (fun d => T_IDENTIFIER (snd d)) ds) init) s') /\ declared_all E t s ds s'.
Proof.
  induction ds as [|[n x] ds IH]; intros init t s c cs Hs Ht Hnd Hres.
  - right. exists s. split; [apply lim_const; reflexivity|constructor; apply gc_only_refl].
  - cbn [map fst snd] in *. inversion Hnd as [|? ? Hx Hnd']; subst.
    destruct (lim_var n x t s c cs Hs Ht) as [H|H].
    + left. eexists. cbn [foldM]. apply (lim_bind_fail E _ _ _ _ s _ H). reflexivity.
    + rewrite (Hres x (or_introl eq_refl)) in H. cbn [is_NULL] in H. destruct H as (a & s1 & H & Hd).
      destruct (declared_stack _ _ _ _ _ _ _ Hd Hs) as (c1 & Hs1 & Hc1).
      destruct (IH (T_IDENTIFIER x) t s1 c1 cs Hs1 Ht Hnd') as [(s' & H')|(s' & H' & Ha)].
      { intros y Hy. rewrite Hc1, resolve_app_other; [apply Hres; right; exact Hy|]. intros ->. contradiction. }
      * left. exists s'. cbn [foldM]. eapply lim_bind; [exact H|exact H'].
      * right. exists s'. split; [|econstructor; eauto]. cbn [foldM]. eapply lim_bind; [exact H|].
        destruct ds as [|d ds]; [exact H'|]. 
        replace (last (T_IDENTIFIER x :: map (fun d => T_IDENTIFIER (snd d)) (d :: ds)) init)
          with (last (map (fun d => T_IDENTIFIER (snd d)) (d :: ds)) (T_IDENTIFIER x)); [exact H'|].
        clear. cbn [map]. generalize (T_IDENTIFIER (snd d)) as z. revert ds. induction ds as [|e ds IH]; intros z; auto.
        cbn [map last] in *. apply IH.
Qed.

Lemma declared_all_gc_l t s s1 ds s2 : only_gc E s s1 -> declared_all E t s1 ds s2 -> declared_all E t s ds s2.
Proof.
  intros H Ha. destruct Ha.
  - constructor. eapply gc_only_trans; eauto.
  - econstructor; [eapply declared_gc_l; eauto|assumption].
Qed.

Lemma last_app_nonempty A (f : A -> tree) d ds init : last (map f (d :: ds)) init = last (map f (d :: ds)) NULL.
Proof. revert d. induction ds as [|e ds IH]; intros d; [reflexivity|]. exact (IH e). Qed.

Theorem declaration l specs t ds s c cs : zfind l (statics s) = None -> names_type specs t -> scalar t -> no_storage_class specs ->
  stack s = c :: cs -> NoDup (map snd ds) -> (forall x, In x (map snd ds) -> ~ declares c x) ->
  let d := T_DECL l (CHAIN_HEAD (map T_SPEC specs)) (CHAIN_HEAD (map (fun d => stars (fst d) (T_IDENTIFIER (snd d))) ds)) in
  out_of_memory E s d 16 \/
  exists s', runs E s d (Ok (last (map (fun d => T_IDENTIFIER (snd d)) ds) NULL) s') /\ declared_all E t s ds s'.
Proof.
  intros Hl Hn Ht Hc Hs Hnd Hres. cbv zeta.
  destruct (declare_all ds NULL t (after_tick E s) c cs Hs Ht Hnd) as [(s' & H)|(s' & H & Ha)].
  { intros x Hx. destruct (resolve_id x (c_idmap c)) eqn:Hr; auto; exfalso; apply (Hres x Hx), declares_resolve; congruence. }
  - left. eapply (oom E). apply lim_runs; [discriminate|]. eapply lim_decl; eauto. 
  - right. exists s'. split; [|eapply declared_all_gc_l; [apply gc_only_tick|exact Ha]].
    apply lim_runs; [discriminate|]. eapply lim_decl; eauto.
Qed.

(** The bare declarator of a parameter. *)
Theorem parameter l specs t n x s c cs : zfind l (statics s) = None -> names_type specs t -> scalar t -> no_storage_class specs ->
  stack s = c :: cs -> ~ declares c x ->
  let d := T_DECL l (CHAIN_HEAD (map T_SPEC specs)) (stars n (T_IDENTIFIER x)) in
  out_of_memory E s d 16 \/
  exists a s', runs E s d (Ok (T_IDENTIFIER x) s') /\ declared E s x (pointer_to n t) a s'.
Proof.
  intros Hl Hn Ht Hc Hs Hres. cbv zeta.
  assert (Hr : resolve_id x (c_idmap c) = NULL).
  { destruct (resolve_id x (c_idmap c)) eqn:Hr; auto; exfalso; apply Hres, declares_resolve; congruence. }
  assert (Hd : forall k : knot, each_decl (fun d => k_hd k d t) (stars n (T_IDENTIFIER x)) = k_hd k (stars n (T_IDENTIFIER x)) t)
    by (intros k; destruct n; reflexivity).
  assert (Hnn : is_NULL (stars n (T_IDENTIFIER x)) = false) by (destruct n; reflexivity).
  destruct (lim_var n x t (after_tick E s) c cs Hs Ht) as [H|H].
  - left. eapply (oom E). apply lim_runs; [discriminate|]. eapply lim_decl; eauto. destruct H as [m H]. exists m. intros j Hj.
    rewrite Hd. auto.
  - rewrite Hr in H. destruct H as (a & s' & H & Ha). right. exists a, s'.
    split; [|eapply declared_gc_l; [apply gc_only_tick|exact Ha]].
    apply lim_runs; [discriminate|]. eapply lim_decl; eauto. destruct H as [m H]. exists m. intros j Hj.
    rewrite Hd. auto.
Qed.

(** A name that the current scope already declares. *)
Theorem redeclaration l specs t n x s c cs : zfind l (statics s) = None -> names_type specs t -> scalar t -> no_storage_class specs ->
  stack s = c :: cs -> declares c x ->
  let d := T_DECL l (CHAIN_HEAD (map T_SPEC specs)) (CHAIN_HEAD [stars n (T_IDENTIFIER x)]) in
  out_of_memory E s d 16 \/ exists s', runs E s d (Die s').
Proof.
  intros Hl Hn Ht Hc Hs Hres. cbv zeta. apply declares_resolve in Hres.
  destruct (lim_var n x t (after_tick E s) c cs Hs Ht) as [H|H].
  - left. eapply (oom E). apply lim_runs; [discriminate|]. eapply lim_decl; eauto. cbn [each_decl foldM].
    apply (lim_bind_fail E _ _ _ _ _ _ H). reflexivity.
  - assert (Hz : is_NULL (resolve_id x (c_idmap c)) = false) by (destruct (resolve_id x (c_idmap c)); congruence || reflexivity).
    rewrite Hz in H. destruct H as (s' & H). right. exists s'.
    apply lim_runs; [discriminate|]. eapply lim_decl; eauto. cbn [each_decl foldM].
    apply (lim_bind_fail E _ _ _ _ _ (Die s') H). reflexivity.
Qed.

Lemma lim_init_declarator al n x e t s r : scalar t -> plain s al (stars n (T_IDENTIFIER x)) ->
  let dd := T_ASSIGN al (stars n (T_IDENTIFIER x)) e in
  lim E (fun k => bind (k_hd k (stars n (T_IDENTIFIER x)) t) (fun r =>
      bind (modify (set_ov_asn (fun o => (al, r) :: o))) (fun _ => bind (k_ev k dd) (fun _ => ret r)))) (after_tick E s) r ->
  lim E (fun k => each_decl (fun d => k_hd k d t) (CHAIN_HEAD [dd])) s r.
Proof.
  intros Ht Hp. cbv zeta. set (dd := T_ASSIGN al (stars n (T_IDENTIFIER x)) e). intros H. cbn [each_decl foldM].
  assert (Hq : match zfind al (ov_asn s) with Some v => v | None => stars n (T_IDENTIFIER x) end = stars n (T_IDENTIFIER x))
    by (destruct Hp as [-> | ->]; reflexivity).
  assert (H' : lim E (fun k => k_hd k dd t) s r).
  { apply lim_hd. destruct H as [m H]. exists m. intros j Hj. rewrite <- (H j Hj). unfold handle_declarator.
    rewrite (bind_eq _ _ _ _ _ _ _ (tick_eq E s)). cbn [resolve_ptr_type dd is_NULL]. rewrite scalar_not_null by exact Ht.
    cbn [orb]. unfold bind at 1, get. cbn [is_T_IDENTIFIER]. rewrite andb_false_r.
    assert (Hd : declare_other E (K E j) dd t (after_tick E s) = bind (k_hd (K E j) (stars n (T_IDENTIFIER x)) t) (fun r =>
      bind (modify (set_ov_asn (fun o => (al, r) :: o))) (fun _ => bind (k_ev (K E j) dd) (fun _ => ret r))) (after_tick E s)).
    { unfold declare_other, dd. unfold bind at 1, get. unfold assign_lhs. change (ov_asn (after_tick E s)) with (ov_asn s). rewrite Hq. reflexivity. }
    destruct t; try contradiction; exact Hd. }
  destruct H' as [m H']. exists m. intros j Hj. unfold bind. rewrite (H' j Hj). destruct r; reflexivity.
Qed.

Theorem redeclaration_init l specs t al n x e s c cs : zfind l (statics s) = None -> names_type specs t -> scalar t -> no_storage_class specs ->
  stack s = c :: cs -> declares c x -> plain s al (stars n (T_IDENTIFIER x)) ->
  let d := T_DECL l (CHAIN_HEAD (map T_SPEC specs)) (CHAIN_HEAD [T_ASSIGN al (stars n (T_IDENTIFIER x)) e]) in
  out_of_memory E s d 16 \/ exists s', runs E s d (Die s').
Proof.
  intros Hl Hn Ht Hc Hs Hres Hp. cbv zeta. apply declares_resolve in Hres.
  destruct (lim_var n x t (after_tick E (after_tick E s)) c cs Hs Ht) as [H|H].
  - left. eapply (oom E). apply lim_runs; [discriminate|]. eapply lim_decl; eauto. apply lim_init_declarator; auto.
    apply (lim_bind_fail E _ _ _ _ _ _ H). reflexivity.
  - assert (Hz : is_NULL (resolve_id x (c_idmap c)) = false) by (destruct (resolve_id x (c_idmap c)); congruence || reflexivity).
    rewrite Hz in H. destruct H as (s' & H). right. exists s'.
    apply lim_runs; [discriminate|]. eapply lim_decl; eauto. apply lim_init_declarator; auto.
    apply (lim_bind_fail E _ _ _ _ _ (Die s') H). reflexivity.
Qed.

(** With an initialiser: the variable is declared, then the assignment runs. *)
Theorem initialiser l specs t al n x e s c cs : zfind l (statics s) = None -> names_type specs t -> scalar t -> no_storage_class specs ->
  stack s = c :: cs -> ~ declares c x -> plain s al (stars n (T_IDENTIFIER x)) ->
  let d := T_DECL l (CHAIN_HEAD (map T_SPEC specs)) (CHAIN_HEAD [T_ASSIGN al (stars n (T_IDENTIFIER x)) e]) in
  out_of_memory E s d 16 \/
  exists a s1, declared E s x (pointer_to n t) a s1 /\
    let s2 := set_ov_asn (fun o => (al, T_IDENTIFIER x) :: o) s1 in
    (forall v s3, runs E s2 (T_ASSIGN al (T_IDENTIFIER x) e) (Ok v s3) -> runs E s d (Ok (T_IDENTIFIER x) s3)) /\
    (forall r, runs E s2 (T_ASSIGN al (T_IDENTIFIER x) e) r -> stops r -> runs E s d r).
Proof.
  intros Hl Hn Ht Hc Hs Hres Hp. cbv zeta.
  assert (Hr : resolve_id x (c_idmap c) = NULL).
  { destruct (resolve_id x (c_idmap c)) eqn:Hr; auto; exfalso; apply Hres, declares_resolve; congruence. }
  set (dd := T_ASSIGN al (stars n (T_IDENTIFIER x)) e).
  set (s1 := after_tick E s). set (s1' := after_tick E s1).
  pose proof (fun r => lim_init_declarator al n x e t s1 r Ht Hp) as Hdd. cbv zeta in Hdd. fold dd s1' in Hdd.
  destruct (lim_var n x t s1' c cs Hs Ht) as [H|H].
  - left. eapply (oom E). apply lim_runs; [discriminate|]. eapply lim_decl; eauto. apply Hdd.
    apply (lim_bind_fail E _ _ _ _ _ _ H). reflexivity.
  - rewrite Hr in H. destruct H as (a & s2 & H & Ha). right. exists a, s2.
    split; [eapply declared_gc_l; [|exact Ha]; eapply gc_only_trans; apply gc_only_tick|].
    set (s2' := set_ov_asn (fun o => (al, T_IDENTIFIER x) :: o) s2).
    assert (Hev : forall r, runs E s2' (T_ASSIGN al (T_IDENTIFIER x) e) r -> runs E s2' dd r).
    { intros r Hru. apply runs_lim in Hru as Hlim. apply lim_runs; [apply Hru|]. revert Hlim. apply lim_ext.
      intros k. cbn [evaluate_1 dd]. unfold eval_assign, bind, get, assign_lhs.
      assert (Hz : zfind al (ov_asn s2') = Some (T_IDENTIFIER x)) by (cbn; rewrite Z.eqb_refl; reflexivity).
      rewrite Hz. reflexivity. }
    split.
    + intros v s3 Hru. apply Hev in Hru. apply lim_runs; [discriminate|]. eapply lim_decl; eauto. apply Hdd.
      eapply lim_bind; [exact H|]. eapply lim_bind; [apply lim_const; reflexivity|].
      eapply lim_bind; [apply lim_ev; exact Hru|]. apply lim_const. reflexivity.
    + intros r Hru Hst. apply Hev in Hru. apply lim_runs; [apply Hru|]. eapply lim_decl; eauto. apply Hdd.
      eapply lim_bind; [exact H|]. eapply lim_bind; [apply lim_const; reflexivity|].
      apply lim_ev in Hru. destruct Hru as [m Hru]. exists m. intros j Hj. unfold bind. fold s2'. rewrite (Hru j Hj).
      destruct r; try reflexivity. exfalso. eapply Hst. reflexivity.
Qed.

Lemma resolve_id_app_r x m v : ~ In x (map fst m) -> resolve_id x (m ++ [(x, v)]) = v.
Proof.
  intros H. induction m as [|[y w] m IH]; cbn in *; [rewrite String.eqb_refl; reflexivity|].
  destruct (String.eqb_spec y x); [exfalso; auto|]. apply IH. tauto.
Qed.

Lemma declared_means s x t a s1 c cs : stack s = c :: cs -> ~ In x (map fst (c_idmap c)) -> declared E s x t a s1 ->
  means s1 x (T_LIVE_VAR t a false 0).
Proof.
  intros Hs Hn [((c0 & cs0 & H1 & H2) & _) _]. rewrite Hs in H1. inversion H1; subst c0 cs0.
  unfold means, visible. rewrite H2. exists [], (scope_with c [(x, T_LIVE_VAR t a false 0)] a).
  eexists. split; [reflexivity|]. split; [intros d []|]. split; [discriminate|].
  apply entry_resolve; [discriminate|]. apply resolve_id_app_r, Hn.
Qed.

End Declare.

(** ** Compound assignment *)

Section Compound.
Variable E : env.

Lemma compound s l op x e c a arr n r s1 y : plain s l (T_IDENTIFIER x) ->
  means s x (T_LIVE_VAR (D_T c) a arr n) -> integer_type c = true ->
  runs E s e (Ok r s1) -> number E s1 r y -> storage E s1 a (width c) ->
  match zop op (as_long (value_at s1 c a)) y with
  | Some z => exists s2 w, runs E s (T_ASSIGN l (T_IDENTIFIER x) (T_BINOP op (T_IDENTIFIER x) e)) (Ok (T_INTEGER z) s2) /\
      only_writes E s1 a (width c) s2 /\ clipped z w /\ wraps c w (value_at s2 c a)
  | None => exists s2, runs E s (T_ASSIGN l (T_IDENTIFIER x) (T_BINOP op (T_IDENTIFIER x) e)) (Abort s2) /\ only_gc E s1 s2
  end.
Proof.
  intros Hp Hm Hc He Hn Hs.
  assert (Hx : runs E s (T_IDENTIFIER x) (Ok (T_LIVE_VAR (D_T c) a arr n) s)) by (apply innermost; auto).
  destruct (run_binop E s op (T_IDENTIFIER x) e _ s r s1 _ y Hx He (number_var E s1 c a arr n Hc Hs) Hn) as (s2 & G & H).
  destruct (zop op (as_long (value_at s1 c a)) y) as [z|] eqn:Hz.
  - destruct (assign_int E s l (T_IDENTIFIER x) (T_BINOP op (T_IDENTIFIER x) e) c a arr n s z s2 Hp Hx Hc H) as (s3 & w & R & W & C & V).
    + apply G, Hs.
    + exists s3, w. split; [exact R|]. split; [eapply only_writes_gc_l; eauto|]. auto.
  - exists s2. split; [|exact G]. apply lim_runs; [discriminate|]. cbn [evaluate_1]. unfold eval_assign.
    eapply lim_bind; [apply lim_const; reflexivity|]. cbn beta. unfold assign_lhs.
    assert (Hq : match zfind l (ov_asn s) with Some v => v | None => T_IDENTIFIER x end = T_IDENTIFIER x) by (destruct Hp as [-> | ->]; reflexivity).
    rewrite Hq. eapply lim_bind; [apply lim_ev; exact Hx|].
    apply (lim_bind_fail E _ _ _ _ _ (Abort s2) (lim_ev E _ _ _ H)). reflexivity.
Qed.
End Compound.

(** ** Casts *)

Section Cast.
Variable E : env.

Definition gives_integer e : Prop := computed e -> forall s r s', runs E s (syntax e) (Ok r s') -> exists v, r = T_INTEGER v.
Definition list_gives_integer e : Prop := computed e -> forall m acc s r s',
  foldM (fun _ e => k_ev (K E m) e) acc (parts e) s = Ok r s' -> exists v, r = T_INTEGER v.
Lemma list_integer_one e : parts e = [syntax e] -> gives_integer e -> list_gives_integer e.
Proof.
  intros He H Hc m acc s r s'. rewrite He. cbn [foldM]. intros R. apply bind_ok in R as (x & s1 & R & Q). injection Q as <- _.
  apply (H Hc s x s1). eapply runs_intro; [exact R|discriminate].
Qed.
Lemma list_integer_comma a b : gives_integer b -> list_gives_integer (SpecExpr.Comma a b).
Proof.
  intros H Hc m acc s r s'. cbn [parts]. rewrite foldM_app. intros R. apply bind_ok in R as (x & s1 & _ & R). cbn [foldM] in R.
  apply bind_ok in R as (y & s2 & R & Q). injection Q as <- _. apply (H Hc s1 y s2). eapply runs_intro; [exact R|discriminate].
Qed.
Lemma computed_both e : gives_integer e /\ list_gives_integer e.
Proof.
  induction e; try destruct IHe as [IHe L]; try destruct IHe1 as [IHe1 L1]; try destruct IHe2 as [IHe2 L2]; try destruct IHe3 as [IHe3 L3];
    (match goal with |- gives_integer ?x /\ _ => cut (gives_integer x); [intros HC; split; [exact HC|first [apply list_integer_one; [reflexivity|exact HC] | now apply list_integer_comma]]|] end);
    intros Hc s r s' H; cbn [computed syntax] in *; apply runs_lim in H; destruct H as [m H]; specialize (H m (le_n m));
    cbn [evaluate_1] in H.
  - injection H as <- _. eauto.
  - contradiction.
  - unfold eval_binop in H. repeat (apply bind_ok in H; destruct H as (? & ? & _ & H)).
    repeat match type of H with (match ?x with _ => _ end) _ = _ => destruct x; try discriminate H end.
    injection H as <- _. eauto.
  - unfold eval_cmp in H. repeat (apply bind_ok in H; destruct H as (? & ? & _ & H)). injection H as <- _. eauto.
  - unfold eval_negate in H. repeat (apply bind_ok in H; destruct H as (? & ? & _ & H)). injection H as <- _. eauto.
  - unfold eval_ones_comp in H. repeat (apply bind_ok in H; destruct H as (? & ? & _ & H)).
    match type of H with (match ?x with _ => _ end) _ = _ => destruct x; try discriminate H end.
    injection H as <- _. eauto.
  - unfold eval_logic_and in H. apply bind_ok in H. destruct H as (x & ? & _ & H). destruct (x =? 0).
    + apply bind_ok in H. destruct H as (? & ? & _ & H). injection H as <- _. eauto.
    + repeat (apply bind_ok in H; destruct H as (? & ? & _ & H)). injection H as <- _. eauto.
  - unfold eval_logic_or in H. apply bind_ok in H. destruct H as (x & ? & _ & H). destruct (negb (x =? 0)).
    + apply bind_ok in H. destruct H as (? & ? & _ & H). injection H as <- _. eauto.
    + repeat (apply bind_ok in H; destruct H as (? & ? & _ & H)). injection H as <- _. eauto.
  - unfold eval_infix in H. apply bind_ok in H. destruct H as (x & s1 & _ & H).
    destruct (truthy x); [eapply IHe2|eapply IHe3]; try apply Hc; eapply runs_intro; try exact H; discriminate.
  - unfold eval_comma in H. apply bind_ok in H. destruct H as (x & s1 & _ & H).
    eapply IHe2; [exact Hc|]; eapply runs_intro; try exact H; discriminate.
  - unfold eval_expr_list in H. cbn [chain_elems] in H. exact (L Hc m NULL s r s' H).
Qed.
Lemma computed_integer e : computed e -> forall s r s', runs E s (syntax e) (Ok r s') -> exists v, r = T_INTEGER v.
Proof. exact (proj1 (computed_both e)). Qed.

Lemma type_name specs t n s : names_type specs t -> scalar t ->
  exists s', only_gc E s s' /\ runs E s (T_TYPE_SPECIFIER (CHAIN_HEAD (map T_SPEC specs)) (stars n NULL)) (Ok (pointer_to n t) s').
Proof.
  intros Hn Ht. exists (after_tick E (after_tick E s)). split; [eapply gc_only_trans; apply gc_only_tick|].
  apply lim_runs; [discriminate|]. apply lim_const. intros k. cbn [evaluate_1]. unfold eval_type_specifier, resolve_specs.
  unfold bind at 1. rewrite (bind_eq _ _ _ _ _ _ _ (tick_eq E s)), (proj2 (resolve_type specs t) Hn). cbn [ret]. unfold ret at 1.
  unfold bind at 1, get. rewrite scalar_not_comp by exact Ht.
  assert (He : (is_T_IDENTIFIER t || false)%bool = false) by (destruct t; try contradiction; reflexivity).
  rewrite He. unfold bind at 1, ret at 1. rewrite (bind_eq _ _ _ _ _ _ _ (tick_eq E _)). unfold ret.
  assert (Hp : forall n t, snd (resolve_ptr_type (stars n NULL) t) = pointer_to n t).
  { assert (H : forall n t, pointer_to n (D_T_PTR t) = D_T_PTR (pointer_to n t))
      by (clear; induction n; intros t; cbn; congruence).
    induction n0; intros t0; cbn; auto. rewrite IHn0, H. reflexivity. }
  rewrite Hp. reflexivity.
Qed.

Lemma gains_store s m a s1 bytes n : Z.of_nat (List.length bytes) = n -> gains E s m a s1 -> mem s1 = mem s ->
  let s2 := set_mem (fun m => store_bytes m a bytes) s1 in
  gains E s m a s2 /\ forall x, x < a \/ a + n <= x -> mem s2 x = mem s x.
Proof.
  intros Hl H Hm. cbv zeta. split.
  - exact H.
  - intros x Hx. cbn. rewrite store_bytes_out by lia. congruence.
Qed.

Lemma scalar_width_16 t : 0 <= scalar_width t <= 16.
Proof. destruct t; cbn; try lia. destruct c; cbn; lia. Qed.

Definition dest_bytes (t : tree) (z : Z) : list Z :=
  match t with D_T c => bytes_c c z | _ => le_bytes 8 z end.

Lemma dest_bytes_len t z : Z.of_nat (List.length (dest_bytes t z)) = scalar_width t.
Proof. destruct t; try reflexivity. apply bytes_c_len. Qed.

Lemma dest_value t z s a : match t with D_T c => integer_type c = true | D_T_PTR _ => True | _ => False end ->
  exists w, scalar_at (set_mem (fun m => store_bytes m a (dest_bytes t z)) s) t a w /\ fits t z w.
Proof.
  intros Ht. destruct t; try contradiction; cbn [dest_bytes scalar_at fits].
  - eexists. split; [split; [exact Ht|reflexivity]|]. rewrite value_at_store. apply wraps_conv.
  - eexists. split; [reflexivity|]. apply unsigned_store.
Qed.

(** The common end of the casts. *)
Lemma cast_end s2 dest z : stack s2 <> [] -> int_or_pointer dest ->
  let m := bind (make_live_var_addr E) (fun a => bind (store a (dest_bytes dest z)) (fun _ => ret (live_var dest a))) in
  m s2 = NoMemory 16 (after_tick E s2) \/
  exists a s3, m s2 = Ok (T_LIVE_VAR dest a false 0) s3 /\ gains E s2 [] a s3 /\
    (forall x, x < a \/ a + scalar_width dest <= x -> mem s3 x = mem s2 x) /\
    exists w, scalar_at s3 dest a w /\ fits dest z w.
Proof.
  intros Hs Hd. cbv zeta. destruct (make_live_var_cases E s2 Hs) as [[Hm Hv]|Hv].
  - right. set (a := e_malloc E (after_tick E s2) 16) in *.
    destruct (with_object_gains E s2 a Hs Hm eq_refl) as [G Hmem].
    assert (Hst : storage E (with_object E s2 16) a (scalar_width dest)).
    { destruct G as (_ & (S & _) & _). eapply storage_sub; [exact S|lia|]. pose proof (scalar_width_16 dest). lia. }
    rewrite (bind_eq _ _ _ _ _ _ _ Hv). unfold bind.
    rewrite (store_storage E _ _ _ _ Hst (dest_bytes_len dest z)).
    destruct (gains_store s2 [] a _ (dest_bytes dest z) _ (dest_bytes_len dest z) G Hmem) as [G' M'].
    eexists a, _. split; [reflexivity|]. split; [exact G'|]. split; [exact M'|]. apply dest_value, Hd.
  - left. unfold bind. rewrite Hv. reflexivity.
Qed.

Lemma cast_number s e ty dest v s1 s2 : runs E s e (Ok (T_INTEGER v) s1) -> runs E s1 ty (Ok dest s2) -> stack s2 <> [] ->
  int_or_pointer dest ->
  out_of_memory E s (T_CAST ty e) 16 \/
  exists a s3, runs E s (T_CAST ty e) (Ok (T_LIVE_VAR dest a false 0) s3) /\ gains E s2 [] a s3 /\
    (forall x, x < a \/ a + scalar_width dest <= x -> mem s3 x = mem s2 x) /\
    exists u w, clipped v u /\ scalar_at s3 dest a w /\ fits dest u w.
Proof.
  intros H1 H2 Hs Hd. destruct (cast_end s2 dest (mpz_get_si v) Hs Hd) as [H|(a & s3 & H & G & M & w & W1 & W2)].
  - left. eapply (oom E). apply lim_runs; [discriminate|]. cbn [evaluate_1]. unfold eval_cast.
    eapply lim_bind; [apply lim_ev, H1|]. eapply lim_bind; [apply lim_ev, H2|]. cbn beta iota.
    apply lim_const. intros _. rewrite <- H. unfold bind. destruct (make_live_var_addr E s2); auto.
    unfold assign_integer, bind, ret. destruct dest; try contradiction; cbn [dest_bytes int_or_pointer] in *.
    + change (is_intty c) with (integer_type c). rewrite Hd. reflexivity.
    + reflexivity.
  - right. exists a, s3. split; [|split; [exact G|split; [exact M|exists (mpz_get_si v), w; split; [apply clipped_get_si|auto]]]].
    apply lim_runs; [discriminate|]. cbn [evaluate_1]. unfold eval_cast.
    eapply lim_bind; [apply lim_ev, H1|]. eapply lim_bind; [apply lim_ev, H2|]. cbn beta iota.
    apply lim_const. intros _. rewrite <- H. unfold bind. destruct (make_live_var_addr E s2); auto.
    unfold assign_integer, bind, ret. destruct dest; try contradiction; cbn [dest_bytes int_or_pointer] in *.
    + change (is_intty c) with (integer_type c). rewrite Hd. reflexivity.
    + reflexivity.
Qed.

Definition scalar_tag (t : tree) : option ctype := match t with D_T c => Some c | _ => None end.
Definition source_value (t : tree) (raw : Z) : Z := match t with D_T c => conv c raw | _ => raw end.

Lemma cast_bytes_dest t dest raw : int_or_pointer t -> int_or_pointer dest ->
  cast_bytes E (scalar_tag t) (scalar_tag dest) raw = Some (dest_bytes dest (source_value t raw)).
Proof.
  intros Ht Hd. destruct t; try contradiction; destruct dest; try contradiction;
    cbn [scalar_tag cast_bytes dest_bytes source_value int_or_pointer] in *;
    repeat match goal with |- context [is_intty ?c] => change (is_intty c) with (integer_type c) end;
    rewrite ?Ht, ?Hd; reflexivity.
Qed.

Lemma scalar_of_tag t : int_or_pointer t -> scalar_of t = Some (scalar_tag t).
Proof. destruct t; try contradiction; reflexivity. Qed.

Lemma source_value_at s t b z : scalar_at s t b z -> z = source_value t (le_load (mem s) b (Z.to_nat (scalar_width t))).
Proof.
  destruct t; try contradiction; cbn [scalar_at source_value scalar_width].
  - intros [_ ->]. apply value_at_load.
  - auto.
Qed.

Lemma cast_variable s e ty dest t b arr n s1 s2 z : runs E s e (Ok (T_LIVE_VAR t b arr n) s1) -> runs E s1 ty (Ok dest s2) ->
  stack s2 <> [] -> int_or_pointer dest -> storage E s2 b (scalar_width t) -> scalar_at s2 t b z ->
  out_of_memory E s (T_CAST ty e) 16 \/
  exists a s3, runs E s (T_CAST ty e) (Ok (T_LIVE_VAR dest a false 0) s3) /\ gains E s2 [] a s3 /\
    (forall x, x < a \/ a + scalar_width dest <= x -> mem s3 x = mem s2 x) /\
    exists w, scalar_at s3 dest a w /\ fits dest z w.
Proof.
  intros H1 H2 Hs Hd Hb Hz.
  assert (Ht : int_or_pointer t) by (destruct t; try contradiction; [apply Hz|exact I]).
  assert (Hlim : lim E (fun k => evaluate_1 E k (T_CAST ty e)) s
    (bind (make_live_var_addr E) (fun a => bind (store a (dest_bytes dest z)) (fun _ => ret (live_var dest a))) s2)).
  { cbn [evaluate_1]. unfold eval_cast.
    eapply lim_bind; [apply lim_ev, H1|]. eapply lim_bind; [apply lim_ev, H2|]. cbn beta iota.
    apply lim_const. intros _. rewrite !scalar_of_tag, cast_bytes_dest by assumption.
    destruct (make_live_var_cases E s2 Hs) as [[Hm Hv]|Hv]; [|unfold bind; rewrite Hv; reflexivity].
    rewrite !(bind_eq _ _ _ _ _ _ _ Hv).
    destruct (with_object_gains E s2 _ Hs Hm eq_refl) as [(_ & (_ & _ & _ & Hold) & _) Hmem].
    assert (Hsz : scalar_size (scalar_tag t) = scalar_width t) by (destruct t; try contradiction; reflexivity).
    rewrite Hsz. unfold bind at 1. rewrite load_valid.
    2:{ apply (storage_valid E). apply Hold; [|exact Hb]. destruct t; try contradiction; cbn; [destruct c; cbn; lia|lia]. }
    rewrite cast_bytes_dest by assumption.
    rewrite Hmem, <- (source_value_at s2 t b z Hz). reflexivity. }
  destruct (cast_end s2 dest z Hs Hd) as [H|(a & s3 & H & G & M & W)]; rewrite H in Hlim.
  - left. eapply (oom E). apply lim_runs; [discriminate|exact Hlim].
  - right. exists a, s3. split; [apply lim_runs; [discriminate|exact Hlim]|]. auto.
Qed.

End Cast.

(** ** Corollaries *)

Section Corollaries.
Variable E : env.

Lemma means_only_writes s a n s' x v : only_writes E s a n s' -> means s x v -> means s' x v.
Proof.
  intros [_ [G _]] Hm. assert (Hv : v <> NULL) by (destruct Hm as (?&?&?&_&_&H&_); exact H).
  apply means_lookup; auto. apply means_lookup in Hm; auto. rewrite <- Hm. apply (lookup_gc _ _ x) in G. rewrite G. reflexivity.
Qed.

Lemma assign_owned s l x e c a arr n v s1 : reachable E s -> plain s l (T_IDENTIFIER x) ->
  means s x (T_LIVE_VAR (D_T c) a arr n) -> integer_type c = true -> owned s a (width c) ->
  runs E s e (Ok (T_INTEGER v) s1) -> breaks s1 = breaks s ->
  exists s2 w, runs E s (T_ASSIGN l (T_IDENTIFIER x) e) (Ok (T_INTEGER v) s2) /\ only_writes E s1 a (width c) s2 /\
    clipped v w /\ wraps c w (value_at s2 c a).
Proof.
  intros Hr Hp Hm Hc Ho He Hb. eapply assign_int; eauto; [apply innermost; eauto|].
  apply owned_storage. eapply owned_runs; eauto.
Qed.

Lemma computed_value rho e s : computed e -> (forall y, mentions e y -> number E s (lookup s y) (rho y)) ->
  exists s', only_gc E s s' /\
    match denote rho e with Some v => runs E s (syntax e) (Ok (T_INTEGER v) s') | None => runs E s (syntax e) (Abort s') end.
Proof.
  intros Hc Hg. destruct (expr_correct E rho e s Hg) as (s1 & G & H). exists s1. split; [exact G|].
  destruct (denote rho e); [|exact H]. destruct H as (r & Hr & Hn).
  destruct (computed_integer E e Hc s r s1 Hr) as [v ->]. inversion Hn; subst. exact Hr.
Qed.

Lemma assign_expr rho e s l x c a arr n : plain s l (T_IDENTIFIER x) -> means s x (T_LIVE_VAR (D_T c) a arr n) ->
  integer_type c = true -> storage E s a (width c) -> computed e ->
  (forall y, mentions e y -> number E s (lookup s y) (rho y)) ->
  match denote rho e with
  | Some v => exists s' w, runs E s (T_ASSIGN l (T_IDENTIFIER x) (syntax e)) (Ok (T_INTEGER v) s') /\
      only_writes E s a (width c) s' /\ clipped v w /\ wraps c w (value_at s' c a) /\
      means s' x (T_LIVE_VAR (D_T c) a arr n) /\ number E s' (T_LIVE_VAR (D_T c) a arr n) (as_long (value_at s' c a))
  | None => exists s', runs E s (T_ASSIGN l (T_IDENTIFIER x) (syntax e)) (Abort s') /\ only_gc E s s'
  end.
Proof.
  intros Hp Hm Hc Hs He Hg. destruct (computed_value rho e s He Hg) as (s1 & G & H).
  assert (Hx : runs E s (T_IDENTIFIER x) (Ok (T_LIVE_VAR (D_T c) a arr n) s)) by (apply innermost; auto).
  destruct (denote rho e) as [v|].
  - destruct (assign_int E s l _ _ c a arr n s v s1 Hp Hx Hc H) as (s' & w & R & W & C & V); [apply G, Hs|].
    assert (W' : only_writes E s a (width c) s') by (eapply only_writes_gc_l; eauto).
    exists s', w. split; [exact R|]. split; [exact W'|]. split; [exact C|]. split; [exact V|].
    split; [eapply means_only_writes; eauto|]. constructor; auto. eapply only_writes_storage; eauto.
  - exists s1. split; [|exact G]. apply lim_runs; [discriminate|]. cbn [evaluate_1]. unfold eval_assign.
    eapply lim_bind; [apply lim_const; reflexivity|]. cbn beta. unfold assign_lhs.
    assert (Hq : match zfind l (ov_asn s) with Some v => v | None => T_IDENTIFIER x end = T_IDENTIFIER x) by (destruct Hp as [-> | ->]; reflexivity).
    rewrite Hq. eapply lim_bind; [apply lim_ev; exact Hx|].
    apply (lim_bind_fail E _ _ _ _ _ (Abort s1) (lim_ev E _ _ _ H)). reflexivity.
Qed.

Lemma compound_expr rho op e s l x c a arr n : plain s l (T_IDENTIFIER x) -> means s x (T_LIVE_VAR (D_T c) a arr n) ->
  integer_type c = true -> storage E s a (width c) ->
  (forall y, mentions e y -> number E s (lookup s y) (rho y)) ->
  match denote rho e with
  | Some y =>
      match zop op (as_long (value_at s c a)) y with
      | Some v => exists s' w, runs E s (T_ASSIGN l (T_IDENTIFIER x) (T_BINOP op (T_IDENTIFIER x) (syntax e))) (Ok (T_INTEGER v) s') /\
          only_writes E s a (width c) s' /\ clipped v w /\ wraps c w (value_at s' c a) /\ means s' x (T_LIVE_VAR (D_T c) a arr n)
      | None => exists s', runs E s (T_ASSIGN l (T_IDENTIFIER x) (T_BINOP op (T_IDENTIFIER x) (syntax e))) (Abort s') /\ only_gc E s s'
      end
  | None => exists s', runs E s (T_ASSIGN l (T_IDENTIFIER x) (T_BINOP op (T_IDENTIFIER x) (syntax e))) (Abort s') /\ only_gc E s s'
  end.
Proof.
  intros Hp Hm Hc Hs Hg. destruct (expr_correct E rho e s Hg) as (s1 & G & H).
  assert (Hx : runs E s (T_IDENTIFIER x) (Ok (T_LIVE_VAR (D_T c) a arr n) s)) by (apply innermost; auto).
  destruct (denote rho e) as [y|].
  - destruct H as (r & Hr & Hn). assert (Hs1 : storage E s1 a (width c)) by (apply G, Hs).
    pose proof (compound E s l op x (syntax e) c a arr n r s1 y Hp Hm Hc Hr Hn Hs1) as Hcm.
    replace (value_at s1 c a) with (value_at s c a) in Hcm
      by (symmetry; apply value_at_mem; destruct G as [[] _]; assumption).
    destruct (zop op (as_long (value_at s c a)) y).
    + destruct Hcm as (s' & w & R & W & C & V). assert (W' : only_writes E s a (width c) s') by (eapply only_writes_gc_l; eauto).
      exists s', w. split; [exact R|]. split; [exact W'|]. split; [exact C|]. split; [exact V|]. eapply means_only_writes; eauto.
    + destruct Hcm as (s' & R & W). exists s'. split; [exact R|]. eapply gc_only_trans; eauto.
  - exists s1. split; [|exact G]. apply lim_runs; [discriminate|]. cbn [evaluate_1]. unfold eval_assign.
    eapply lim_bind; [apply lim_const; reflexivity|]. cbn beta. unfold assign_lhs.
    assert (Hq : match zfind l (ov_asn s) with Some v => v | None => T_IDENTIFIER x end = T_IDENTIFIER x) by (destruct Hp as [-> | ->]; reflexivity).
    rewrite Hq. eapply lim_bind; [apply lim_ev; exact Hx|].
    assert (Hb : runs E s (T_BINOP op (T_IDENTIFIER x) (syntax e)) (Abort s1))
      by (eapply run_binop_right; [exact Hx|exact H|intros ? ?; discriminate]).
    apply (lim_bind_fail E _ _ _ _ _ (Abort s1) (lim_ev E _ _ _ Hb)). reflexivity.
Qed.

(** Copying from a variable that is at least as wide. *)
Lemma narrowing s c c' b w : integer_type c = true -> integer_type c' = true -> width c <= width c' ->
  wraps c (unsigned_at (mem s) b 8) w -> wraps c (value_at s c' b) w.
Proof.
  intros Hc Hc' Hw [[q Hq] Hr]. split; [|exact Hr].
  assert (Hsplit : forall k, 0 <= width c <= k -> 2 ^ (8 * k) = 2 ^ (8 * (k - width c)) * 2 ^ (8 * width c)).
  { intros k Hk. rewrite <- Z.pow_add_r by lia. f_equal. lia. }
  assert (Hwc : 0 < width c) by (destruct c; reflexivity).
  assert (H8 : width c' <= 8) by (destruct c'; cbn in *; try discriminate; lia).
  (* eight bytes and the low bytes *)
  pose proof (le_load_prefix (mem s) b (Z.to_nat (width c')) 8 ltac:(lia)) as Hp.
  change (le_load (mem s) b 8) with (unsigned_at (mem s) b 8) in Hp.
  change (le_load (mem s) b (Z.to_nat (width c'))) with (unsigned_at (mem s) b (Z.to_nat (width c'))) in Hp.
  rewrite Z2Nat.id in Hp by lia. rewrite pow256 in Hp by lia.
  pose proof (Z.div_mod (unsigned_at (mem s) b 8) (2 ^ (8 * width c')) ltac:(apply Z.pow_nonzero; lia)) as Hd. rewrite Hp in Hd.
  set (u := unsigned_at (mem s) b (Z.to_nat (width c'))) in *.
  assert (Hv : exists k, value_at s c' b = u + k * 2 ^ (8 * width c')).
  { unfold value_at. fold u. destruct (signed c' && _); [exists (-1)|exists 0]; lia. }
  destruct Hv as [k Hv]. rewrite Hv. set (h := unsigned_at (mem s) b 8 / 2 ^ (8 * width c')) in *.
  exists (q + (h - k) * 2 ^ (8 * (width c' - width c))). rewrite (Hsplit (width c') ltac:(lia)) in Hd |- *. 
  rewrite Hq, Hd. ring.
Qed.

(** Casts written in source. *)
Lemma cast_source_number s e specs t n v s1 : reachable E s -> names_type specs t -> scalar t -> int_or_pointer (pointer_to n t) ->
  runs E s e (Ok (T_INTEGER v) s1) ->
  let cast := T_CAST (T_TYPE_SPECIFIER (CHAIN_HEAD (map T_SPEC specs)) (stars n NULL)) e in
  out_of_memory E s cast 16 \/
  exists a s3, runs E s cast (Ok (T_LIVE_VAR (pointer_to n t) a false 0) s3) /\ gains E s1 [] a s3 /\
    (forall x, x < a \/ a + scalar_width (pointer_to n t) <= x -> mem s3 x = mem s1 x) /\
    exists u w, clipped v u /\ scalar_at s3 (pointer_to n t) a w /\ fits (pointer_to n t) u w.
Proof.
  intros Hr Hn Ht Hd He. destruct (type_name E specs t n s1 Hn Ht) as (s2 & G & H). cbv zeta.
  destruct (cast_number E s e _ _ v s1 s2 He H) as [HH|(a & s3 & R & G3 & M & V)]; auto.
  - destruct G as [[] _]. rewrite sg_stack. eapply reachable_nonempty. eapply reachable_runs; [exact Hr|exact He|reflexivity].
  - right. exists a, s3. split; [exact R|]. split; [eapply gains_gc_l; eauto|]. split; [|exact V].
    intros x Hx. rewrite M by exact Hx. destruct G as [[] _]. congruence.
Qed.

Lemma scalar_at_mem s s' t a z : mem s' = mem s -> scalar_at s t a z -> scalar_at s' t a z.
Proof.
  intros Hm. destruct t; cbn; auto.
  - intros [H ->]. split; auto. symmetry. apply value_at_mem, Hm.
  - intros ->. rewrite Hm. reflexivity.
Qed.

Lemma cast_source_variable s e specs t n t' b arr k z s1 : reachable E s -> names_type specs t -> scalar t -> int_or_pointer (pointer_to n t) ->
  runs E s e (Ok (T_LIVE_VAR t' b arr k) s1) -> storage E s1 b (scalar_width t') -> scalar_at s1 t' b z ->
  let cast := T_CAST (T_TYPE_SPECIFIER (CHAIN_HEAD (map T_SPEC specs)) (stars n NULL)) e in
  out_of_memory E s cast 16 \/
  exists a s3, runs E s cast (Ok (T_LIVE_VAR (pointer_to n t) a false 0) s3) /\ gains E s1 [] a s3 /\
    (forall x, x < a \/ a + scalar_width (pointer_to n t) <= x -> mem s3 x = mem s1 x) /\
    exists w, scalar_at s3 (pointer_to n t) a w /\ fits (pointer_to n t) z w.
Proof.
  intros Hr Hn Ht Hd He Hs Hz. destruct (type_name E specs t n s1 Hn Ht) as (s2 & G & H). cbv zeta.
  destruct (cast_variable E s e _ _ t' b arr k s1 s2 z He H) as [HH|(a & s3 & R & G3 & M & V)]; auto.
  - destruct G as [[] _]. rewrite sg_stack. eapply reachable_nonempty. eapply reachable_runs; [exact Hr|exact He|reflexivity].
  - apply G, Hs.
  - eapply scalar_at_mem; [|exact Hz]. destruct G as [[] _]. assumption.
  - right. exists a, s3. split; [exact R|]. split; [eapply gains_gc_l; eauto|]. split; [|exact V].
    intros x Hx. rewrite M by exact Hx. destruct G as [[] _]. congruence.
Qed.

Lemma declared_lookup s x t a s1 c cs y : stack s = c :: cs -> declared E s x t a s1 -> y <> x -> lookup s1 y = lookup s y.
Proof.
  intros Hs [((c0 & cs0 & H1 & H2) & _ & (R1 & _)) _] Hy. rewrite Hs in H1. inversion H1; subst c0 cs0.
  unfold lookup, scope_ctxs. rewrite H2, Hs, R1. cbn [app map]. rewrite !resolve_maps_cons. cbn [scope_with c_idmap].
  rewrite resolve_app_other by exact Hy. reflexivity.
Qed.

Lemma declared_number s x t a s1 r z : declared E s x t a s1 -> number E s r z -> number E s1 r z.
Proof.
  intros [(_ & (_ & _ & _ & Hold) & _) Hm] Hn. inversion Hn; subst.
  - constructor.
  - rewrite <- (value_at_mem s s1) by exact Hm. constructor; auto. apply Hold; auto. destruct c; reflexivity.
  - rewrite <- Hm. constructor. apply Hold; auto. lia.
Qed.

Lemma number_set_ov_asn f s r z : number E s r z -> number E (set_ov_asn f s) r z.
Proof.
  intros H. inversion H; subst; [constructor| |].
  - change (value_at s c a) with (value_at (set_ov_asn f s) c a). constructor; assumption.
  - change (mem s) with (mem (set_ov_asn f s)). constructor; assumption.
Qed.

Lemma not_in_declares c x : ~ In x (map fst (c_idmap c)) -> ~ declares c x.
Proof.
  intros H (v & _ & m1 & m2 & Hm & _). apply H. rewrite Hm, map_app, in_app_iff. right. left. reflexivity.
Qed.

Lemma initialised_expr rho e l specs ct al x s c cs : zfind l (statics s) = None -> names_type specs (D_T ct) ->
  integer_type ct = true -> no_storage_class specs -> stack s = c :: cs -> ~ In x (map fst (c_idmap c)) ->
  plain s al (T_IDENTIFIER x) -> computed e -> ~ mentions e x ->
  (forall y, mentions e y -> number E s (lookup s y) (rho y)) ->
  let d := T_DECL l (CHAIN_HEAD (map T_SPEC specs)) (CHAIN_HEAD [T_ASSIGN al (T_IDENTIFIER x) (syntax e)]) in
  out_of_memory E s d 16 \/
  exists a s1, declared E s x (D_T ct) a s1 /\
    let s2 := set_ov_asn (fun o => (al, T_IDENTIFIER x) :: o) s1 in
    match denote rho e with
    | Some v => exists s' w, runs E s d (Ok (T_IDENTIFIER x) s') /\ only_writes E s2 a (width ct) s' /\
        clipped v w /\ wraps ct w (value_at s' ct a) /\ means s' x (T_LIVE_VAR (D_T ct) a false 0)
    | None => exists s', runs E s d (Abort s') /\ only_gc E s2 s'
    end.
Proof.
  intros Hl Hn Hi Hc Hs Hx Hp He Hm Hg. cbv zeta.
  destruct (initialiser E l specs (D_T ct) al 0 x (syntax e) s c cs Hl Hn I Hc Hs (not_in_declares _ _ Hx) Hp)
    as [H|(a & s1 & Hd & H1 & H2)]; [left; exact H|right].
  exists a, s1. split; [exact Hd|]. cbn [stars pointer_to] in *.
  set (s2 := set_ov_asn (fun o => (al, T_IDENTIFIER x) :: o) s1) in *.
  assert (Hp2 : plain s2 al (T_IDENTIFIER x)) by (right; cbn; rewrite Z.eqb_refl; reflexivity).
  assert (Hm2 : means s2 x (T_LIVE_VAR (D_T ct) a false 0)) by (apply (declared_means E s x (D_T ct) a s1 c cs Hs Hx Hd)).
  assert (Hs2 : storage E s2 a (width ct)).
  { destruct Hd as [(_ & (S & _) & _) _]. eapply storage_sub; [exact S|lia|]. destruct ct; cbn; lia. }
  pose proof (assign_expr rho e s2 al x ct a false 0 Hp2 Hm2 Hi Hs2 He) as Ha.
  assert (Hg2 : forall y, mentions e y -> number E s2 (lookup s2 y) (rho y)).
  { intros y Hy. apply number_set_ov_asn. change (lookup s2 y) with (lookup s1 y).
    rewrite (declared_lookup s x (D_T ct) a s1 c cs y Hs Hd) by (intros ->; contradiction).
    eapply declared_number; eauto. }
  specialize (Ha Hg2). destruct (denote rho e) as [v|].
  - destruct Ha as (s' & w & R & W & C & V & M & _). exists s', w. split; [eapply H1; exact R|]. auto.
  - destruct Ha as (s' & R & G). exists s'. split; [apply H2; [exact R|intros ? ?; discriminate]|exact G].
Qed.

End Corollaries.
