(** Evaluation of expressions: rules for the operators, and C01. *)
From Coq Require Import ZArith List String Bool Lia.
From Verif Require Import CInt CIntFacts Tree SpecResolver State Eval StepsFacts MonoFacts EvalInv
  SpecScope ScopeFacts SpecRun SpecExpr RunFacts RunRules.
Import ListNotations.
Local Open Scope Z_scope.
Local Open Scope m_scope.

(** ** Only garbage collection *)

Lemma gc_only_refl E s : only_gc E s s.
Proof. split; [apply gc_refl|]. split; [auto|intros b []; assumption]. Qed.
Lemma used_gc E s s' b : same_but_gc s s' -> (used_block E s b -> In b (blocks s')) -> used_block E s b -> used_block E s' b.
Proof.
  intros H Hk Hb. split; [auto|]. destruct Hb as [_ Hb]. unfold roots in *.
  rewrite (sg_stack _ _ H), (sg_incl _ _ H), (sg_statics _ _ H). exact Hb.
Qed.
Lemma used_tick E s b : used_block E s b -> In b (blocks (after_tick E s)).
Proof.
  intros [H1 H2]. cbn [after_tick blocks set_ticks set_closures set_blocks]. apply filter_In. split; auto. unfold collected.
  destruct H2 as [H2|H2]; [rewrite H2; reflexivity|]. rewrite (proj2 (zmem_In _ _) H2), andb_false_r. reflexivity.
Qed.
Lemma gc_only_trans E s1 s2 s3 : only_gc E s1 s2 -> only_gc E s2 s3 -> only_gc E s1 s3.
Proof.
  intros [H1 [H2 H2']] [H3 [H4 H4']]. split; [eapply gc_trans; eauto|]. split; [auto|].
  intros b Hb. apply H4'. eapply used_gc; eauto.
Qed.
Lemma gc_only_tick E s : only_gc E s (after_tick E s).
Proof. split; [apply gc_tick|]. split; [intros; apply storage_tick; auto|apply used_tick]. Qed.
Lemma gc_only_tick_r E s s' : only_gc E s s' -> only_gc E s (after_tick E s').
Proof. intros H. eapply gc_only_trans; [exact H | apply gc_only_tick]. Qed.

#[export] Hint Resolve gc_only_refl gc_only_tick gc_only_tick_r : gco.

Lemma value_at_gc s s' c a : mem s' = mem s -> value_at s' c a = value_at s c a.
Proof. intros H. unfold value_at. rewrite H. reflexivity. Qed.

Lemma number_gc E s s' t z : only_gc E s s' -> number E s t z -> number E s' t z.
Proof.
  intros [Hg [Hs _]] H. destruct H.
  - constructor.
  - rewrite <- (value_at_gc s s') by apply Hg. constructor; auto.
  - rewrite <- (sg_mem _ _ Hg). constructor; auto.
Qed.

Lemma number_inj E s t z z' : number E s t z -> number E s t z' -> z = z'.
Proof. intros H1 H2; destruct H1; inversion H2; reflexivity. Qed.

Lemma reachable_only_gc E s : reachable E s -> reachable E (after_tick E s).
Proof. intros H. eapply reach_step; [exact H|]. apply st_tick. Qed.

(** ** Reading numbers *)

Lemma as_long_smod v : - 2 ^ 63 <= v < 2 ^ 64 -> smod 64 v = as_long v.
Proof.
  intros H. unfold as_long. symmetry. destruct (Z.ltb_spec v (2 ^ 63)).
  - symmetry. apply smod_id; lia.
  - symmetry. apply smod_eq; [lia| lia|]. exists (-1). lia.
Qed.

Lemma conv_range64 c z : is_intty c = true -> - 2 ^ 63 <= conv c z < 2 ^ 64.
Proof.
  intros H. destruct (conv_wraps c z) as [_ Hr].
  destruct c; cbn in *; try discriminate; lia.
Qed.

Lemma load_valid s a n : valid s a n = true -> load a n s = Ok (le_load (mem s) a (Z.to_nat n)) s.
Proof. unfold load. intros ->. reflexivity. Qed.

Lemma make_int_number E s c a ar n z : number E s (T_LIVE_VAR c a ar n) z ->
  make_int_from_live_var E c a s = Ok (T_INTEGER z) (after_tick E s).
Proof.
  intros H. unfold make_int_from_live_var. rewrite (bind_eq _ _ _ _ _ _ _ (tick_eq E s)).
  inversion H; subst.
  - match goal with H : integer_type _ = true |- _ => rewrite integer_type_is_intty in H; rewrite H end.
    rewrite <- width_csize.
    match goal with H : storage _ _ _ _ |- _ =>
      rewrite (bind_eq _ _ _ _ _ _ _ (load_valid _ _ _ (storage_valid E _ _ _ (storage_tick E _ _ _ H)))) end.
    cbn [ret]. unfold ret. do 2 f_equal. rewrite as_long_smod by (apply conv_range64; assumption).
    rewrite value_at_load, width_csize. reflexivity.
  - match goal with H : storage _ _ _ _ |- _ =>
      rewrite (bind_eq _ _ _ _ _ _ _ (load_valid _ _ _ (storage_valid E _ _ _ (storage_tick E _ _ _ H)))) end.
    unfold ret. do 2 f_equal. rewrite as_long_smod; [reflexivity|].
    pose proof (le_load_bound (mem s) a 8).
    change (256 ^ Z.of_nat 8) with (2 ^ 64) in *. cbn [mem after_tick set_ticks set_closures set_blocks].
    change (Z.to_nat 8) with 8%nat. lia.
Qed.

(** Conversion of operands, whichever way the function does it. *)
Lemma lv_to_int_number E s t z : number E s t z ->
  exists s', lv_to_int E t s = Ok (T_INTEGER z) s' /\ only_gc E s s'.
Proof.
  intros H. destruct t; try solve [inversion H].
  - inversion H; subst. exists s. split; [reflexivity|]. auto with gco.
  - cbn [lv_to_int]. eexists. split; [eapply make_int_number; eauto|]. auto with gco.
Qed.

Lemma number_ev E s t z : number E s t z -> runs E s t (Ok t s).
Proof.
  intros H. apply lim_runs; [discriminate|]. apply lim_const. intros k.
  inversion H; subst; reflexivity.
Qed.

Lemma comparable_number E s t r s1 z : runs E s t (Ok r s1) -> number E s1 r z ->
  exists s2, lim E (fun k => comparable E k t) s (Ok z s2) /\ only_gc E s1 s2.
Proof.
  intros Hr Hn.
  exists (match r with T_INTEGER _ => s1 | _ => after_tick E s1 end). split.
  - unfold comparable, convert_to_comparable_type.
    eapply lim_bind; [eapply lim_bind; [apply lim_ev; exact Hr|]|].
    + apply lim_const. intros k. instantiate (1 := match r with T_INTEGER _ => s1 | _ => after_tick E s1 end).
      instantiate (1 := T_INTEGER z). inversion Hn; subst; [reflexivity| |].
      * rewrite integer_type_is_intty in H; rewrite H. eapply make_int_number. exact Hn.
      * eapply make_int_number. exact Hn.
    + apply lim_const. reflexivity.
  - destruct r; try solve [inversion Hn]; auto with gco.
Qed.

Lemma comparable_stops E s t r : runs E s t r -> stops r ->
  lim E (fun k => comparable E k t) s (recast r).
Proof.
  intros Hr Hs. assert (Hk : is_ok r = false).
  { destruct r; auto. exfalso. eapply Hs; reflexivity. }
  unfold comparable, convert_to_comparable_type.
  pose proof (lim_bind_fail E tree tree (fun k => k_ev k t)) as Hl.
  assert (H1 := lim_bind_fail E tree tree (fun k => k_ev k t) (fun k e => match e with
    | NULL => ub | T_INTEGER _ => ret e
    | T_LIVE_VAR type a _ _ => match type with NULL => ub
      | D_T c => if is_intty c then make_int_from_live_var E type a else die
      | D_T_PTR _ => make_int_from_live_var E type a | _ => die end | _ => die end) s r (lim_ev _ _ _ _ Hr) Hk).
  destruct r; try discriminate; exact (lim_bind_fail E tree Z _ (fun k r0 => match r0 with T_INTEGER z => ret z | _ => die end) s _ H1 eq_refl).
Qed.

(** ** Operators *)

Lemma gmp_zop op x y : gmp_op op x y = zop op x y.
Proof.
  destruct op; try reflexivity. unfold gmp_op, zop, mpz_get_ui. f_equal.
  apply Z.shiftl_mul_pow2. apply Z.mod_pos_bound. reflexivity.
Qed.

Lemma cmp_zcmp op x y : cmp_holds op x y = zcmp op x y.
Proof. destruct op; try reflexivity; cbn; [symmetry; apply Z.gtb_ltb | symmetry; apply Z.geb_leb]. Qed.

Lemma mpz_get_si_0 z : mpz_get_si z = 0 <-> 0 <= z /\ z mod 2 ^ 63 = 0.
Proof.
  unfold mpz_get_si. destruct (Z.leb_spec 0 z); split; intros H1; try tauto; try lia.
  pose proof (Z.mod_pos_bound (- z - 1) (2 ^ 63) eq_refl). lia.
Qed.

Lemma truthy_test z : truthy z = test z.
Proof.
  unfold truthy, test. f_equal. destruct (Z.eqb_spec (mpz_get_si z) 0) as [H|H].
  - apply mpz_get_si_0 in H. destruct H as [H1 H2]. rewrite H2. symmetry.
    apply andb_true_iff. split; [apply Z.leb_le, H1 | reflexivity].
  - destruct (Z.leb_spec 0 z); cbn [andb]; [|reflexivity].
    destruct (Z.eqb_spec (z mod 2 ^ 63) 0) as [H1|]; [|reflexivity].
    exfalso. apply H, mpz_get_si_0. auto.
Qed.

Lemma test_holds z : test z = true <-> holds z.
Proof.
  unfold test, holds. rewrite negb_true_iff, andb_false_iff, Z.leb_gt, Z.eqb_neq. split.
  - intros [H|H] [H1 [k Hk]]; [lia|]. apply H. subst z. apply Z.mod_mul. discriminate.
  - intros H. destruct (Z.lt_ge_cases z 0) as [|Hz]; [auto|]. right. intros Hm. apply H. split; [lia|].
    apply Z.mod_divide in Hm; [|discriminate]. exact Hm.
Qed.

Lemma recast_id A (o : res A) : stops o -> recast o = o.
Proof. intros H. destruct o; try reflexivity. exfalso. eapply H. reflexivity. Qed.
Lemma stops_ok A (o : res A) : stops o -> is_ok o = false.
Proof. intros H. destruct o; auto. exfalso. eapply H; reflexivity. Qed.
Lemma stops_recast A B (o : res A) : stops (@recast A B o).
Proof. intros b s. destruct o; discriminate. Qed.
Lemma recast_fuel A B (o : res A) : o <> Fuel -> @recast A B o <> Fuel.
Proof. destruct o; discriminate || congruence. Qed.
Lemma recast_recast A B (o : res A) : stops o -> @recast B A (@recast A B o) = o.
Proof. intros H. destruct o; try reflexivity. exfalso. eapply H; reflexivity. Qed.
Lemma lim_stop E A B (f : knot -> M A) (g : knot -> A -> M B) s x o :
  lim E f s x -> stops x -> o = recast x -> lim E (fun k => bind (f k) (g k)) s o.
Proof. intros H Hx ->. apply lim_bind_fail; auto using stops_ok. Qed.
Lemma lim_comparable_stop E B (g : knot -> Z -> M B) s t (o : res tree) o' :
  runs E s t o -> stops o -> o' = recast o -> lim E (fun k => bind (comparable E k t) (g k)) s o'.
Proof.
  intros Hr Ho ->. eapply lim_stop; [apply comparable_stops; eauto | apply stops_recast |].
  destruct o; reflexivity || (exfalso; eapply Ho; reflexivity).
Qed.

Section Rules.
Variable E : env.

Ltac lbind := eapply lim_bind.

Lemma run_binop s op l r a s1 b s2 x y :
  runs E s l (Ok a s1) -> runs E s1 r (Ok b s2) -> number E s2 a x -> number E s2 b y ->
  exists s3, only_gc E s2 s3 /\
    runs E s (T_BINOP op l r) (match zop op x y with Some z => Ok (T_INTEGER z) s3 | None => Abort s3 end).
Proof.
  intros Hl Hr Ha Hb.
  assert (Ha1 := number_gc _ _ _ _ _ (gc_only_tick E s2) Ha).
  destruct (lv_to_int_number _ _ _ _ Ha1) as (s3 & H3 & G3).
  assert (Hb1 := number_gc _ _ _ _ _ (gc_only_trans _ _ _ _ (gc_only_tick E s2) G3) Hb).
  destruct (lv_to_int_number _ _ _ _ Hb1) as (s4 & H4 & G4).
  exists s4. split.
  { eapply gc_only_trans; [apply gc_only_tick|]. eapply gc_only_trans; eauto. }
  apply lim_runs; [destruct (zop op x y); discriminate|].
  cbn [evaluate_1]. unfold eval_binop.
  lbind; [apply lim_ev, Hl|]. lbind; [apply lim_ev, Hr|]. lbind; [apply lim_pure; reflexivity|].
  lbind; [apply lim_pure; exact H3|]. lbind; [apply lim_pure; exact H4|].
  apply lim_pure. rewrite gmp_zop. destruct (zop op x y); reflexivity.
Qed.

Lemma run_binop_left s op l r o : runs E s l o -> stops o -> runs E s (T_BINOP op l r) o.
Proof.
  intros Hl Ho. apply lim_runs; [apply Hl|]. cbn [evaluate_1]. unfold eval_binop.
  eapply lim_stop; [apply lim_ev, Hl | exact Ho | symmetry; apply recast_id, Ho].
Qed.

Lemma run_binop_right s op l r a s1 o : runs E s l (Ok a s1) -> runs E s1 r o -> stops o ->
  runs E s (T_BINOP op l r) o.
Proof.
  intros Hl Hr Ho. apply lim_runs; [apply Hr|]. cbn [evaluate_1]. unfold eval_binop.
  lbind; [apply lim_ev, Hl|].
  eapply lim_stop; [apply lim_ev, Hr | exact Ho | symmetry; apply recast_id, Ho].
Qed.

(** Comparison reads the left operand before evaluating the right one. *)
Lemma run_cmp s op l r a s1 x : runs E s l (Ok a s1) -> number E s1 a x ->
  exists s1', only_gc E s1 s1' /\
   (forall b s2 y, runs E s1' r (Ok b s2) -> number E s2 b y ->
      exists s3, only_gc E s2 s3 /\ runs E s (T_CMP op l r) (Ok (T_INTEGER (b2z (zcmp op x y))) s3)) /\
   (forall o, runs E s1' r o -> stops o -> runs E s (T_CMP op l r) o).
Proof.
  intros Hl Ha. destruct (comparable_number _ _ _ _ _ _ Hl Ha) as (s1' & H1 & G1).
  exists s1'. split; auto. split.
  - intros b s2 y Hr Hb. destruct (comparable_number _ _ _ _ _ _ Hr Hb) as (s3 & H3 & G3).
    exists (after_tick E s3). split; [auto with gco|].
    apply lim_runs; [discriminate|]. cbn [evaluate_1]. unfold eval_cmp.
    lbind; [exact H1|]. lbind; [exact H3|]. lbind; [apply lim_pure; reflexivity|].
    apply lim_pure. rewrite cmp_zcmp. reflexivity.
  - intros o Hr Ho. apply lim_runs; [apply Hr|]. cbn [evaluate_1]. unfold eval_cmp. lbind; [exact H1|].
    eapply lim_comparable_stop; [exact Hr | exact Ho | symmetry; apply recast_id, Ho].
Qed.

Lemma run_cmp_left s op l r o : runs E s l o -> stops o -> runs E s (T_CMP op l r) o.
Proof.
  intros Hr Ho. apply lim_runs; [apply Hr|]. cbn [evaluate_1]. unfold eval_cmp.
  eapply lim_comparable_stop; [exact Hr | exact Ho | symmetry; apply recast_id, Ho].
Qed.

Lemma run_not s e a s1 x : runs E (after_tick E s) e (Ok a s1) -> number E s1 a x ->
  exists s2, only_gc E s1 s2 /\ runs E s (T_NEGATE e) (Ok (T_INTEGER (b2z (x =? 0))) s2).
Proof.
  intros He Ha. destruct (comparable_number _ _ _ _ _ _ (number_ev _ _ _ _ Ha) Ha) as (s2 & H2 & G2).
  exists s2. split; auto. apply lim_runs; [discriminate|]. cbn [evaluate_1]. unfold eval_negate.
  lbind; [apply lim_pure; reflexivity|]. lbind; [apply lim_ev, He|]. lbind; [exact H2|].
  apply lim_pure. destruct (x =? 0); reflexivity.
Qed.

Lemma run_not_stops s e o : runs E (after_tick E s) e o -> stops o -> runs E s (T_NEGATE e) o.
Proof.
  intros He Ho. apply lim_runs; [apply He|]. cbn [evaluate_1]. unfold eval_negate.
  lbind; [apply lim_pure; reflexivity|].
  rewrite <- (recast_id _ o Ho). apply lim_bind_fail; [apply lim_ev, He | apply stops_ok, Ho].
Qed.

Lemma run_compl s e a s1 x : runs E (after_tick E s) e (Ok a s1) -> number E s1 a x ->
  exists s2, only_gc E s1 s2 /\ runs E s (T_ONES_COMP e) (Ok (T_INTEGER (-1 - x)) s2).
Proof.
  intros He Ha. destruct (lv_to_int_number _ _ _ _ Ha) as (s2 & H2 & G2).
  exists s2. split; auto. apply lim_runs; [discriminate|]. cbn [evaluate_1]. unfold eval_ones_comp.
  lbind; [apply lim_pure; reflexivity|]. lbind; [apply lim_ev, He|]. lbind; [apply lim_pure, H2|].
  apply lim_pure. unfold ret. do 2 f_equal. lia.
Qed.

Lemma run_compl_stops s e o : runs E (after_tick E s) e o -> stops o -> runs E s (T_ONES_COMP e) o.
Proof.
  intros He Ho. apply lim_runs; [apply He|]. cbn [evaluate_1]. unfold eval_ones_comp.
  lbind; [apply lim_pure; reflexivity|].
  rewrite <- (recast_id _ o Ho). apply lim_bind_fail; [apply lim_ev, He | apply stops_ok, Ho].
Qed.

(** Logical operators. *)
Definition logic_tree (is_or : bool) : tree -> tree -> tree := if is_or then T_L_OR else T_L_AND.

Lemma run_logic_short (is_or : bool) s l r a s1 x : runs E s l (Ok a s1) -> number E s1 a x ->
  (x =? 0) = negb is_or ->
  exists s2, only_gc E s1 s2 /\ runs E s (logic_tree is_or l r) (Ok (T_INTEGER (b2z is_or)) s2).
Proof.
  intros Hl Ha Hx. destruct (comparable_number _ _ _ _ _ _ Hl Ha) as (s2 & H2 & G2).
  exists (after_tick E s2). split; [auto with gco|]. apply lim_runs; [discriminate|].
  destruct is_or; cbn [logic_tree evaluate_1]; unfold eval_logic_or, eval_logic_and;
    (lbind; [exact H2|]); rewrite Hx; cbn [negb]; apply lim_pure; reflexivity.
Qed.

Lemma run_logic_long (is_or : bool) s l r a s1 x : runs E s l (Ok a s1) -> number E s1 a x ->
  (x =? 0) = is_or ->
  exists s1', only_gc E s1 s1' /\
   (forall b s2 y, runs E s1' r (Ok b s2) -> number E s2 b y ->
      exists s3, only_gc E s2 s3 /\ runs E s (logic_tree is_or l r) (Ok (T_INTEGER (b2z (negb (y =? 0)))) s3)) /\
   (forall o, runs E s1' r o -> stops o -> runs E s (logic_tree is_or l r) o).
Proof.
  intros Hl Ha Hx. destruct (comparable_number _ _ _ _ _ _ Hl Ha) as (s1' & H1 & G1).
  exists s1'. split; auto. split.
  - intros b s2 y Hr Hb. destruct (comparable_number _ _ _ _ _ _ Hr Hb) as (s3 & H3 & G3).
    exists (after_tick E s3). split; [auto with gco|].
    apply lim_runs; [discriminate|].
    destruct is_or; cbn [logic_tree evaluate_1]; unfold eval_logic_or, eval_logic_and;
    (lbind; [exact H1|]); rewrite Hx; cbn [negb]; (lbind; [exact H3|]); 
    (lbind; [apply lim_pure; reflexivity|]); apply lim_pure; destruct (y =? 0); reflexivity.
  - intros o Hr Ho. apply lim_runs; [apply Hr|].
    destruct is_or; cbn [logic_tree evaluate_1]; unfold eval_logic_or, eval_logic_and;
    (lbind; [exact H1|]); rewrite Hx; cbn [negb];
    (eapply lim_comparable_stop; [exact Hr | exact Ho | symmetry; apply recast_id, Ho]).
Qed.

Lemma run_logic_left (is_or : bool) s l r o : runs E s l o -> stops o -> runs E s (logic_tree is_or l r) o.
Proof.
  intros Hr Ho. apply lim_runs; [apply Hr|].
  destruct is_or; cbn [logic_tree evaluate_1]; unfold eval_logic_or, eval_logic_and;
    (eapply lim_comparable_stop; [exact Hr | exact Ho | symmetry; apply recast_id, Ho]).
Qed.

Lemma logic_boolean (is_or : bool) s l r v s' : runs E s (logic_tree is_or l r) (Ok v s') ->
  v = T_INTEGER 0 \/ v = T_INTEGER 1.
Proof.
  intros H. apply runs_lim in H.
  destruct is_or; cbn [logic_tree evaluate_1] in H; unfold eval_logic_or, eval_logic_and in H;
    (apply lim_bind_ok in H; [|apply kmono_comparable]); destruct H as (x & s1 & _ & H);
    destruct (x =? 0); cbn [negb] in H;
    try (apply lim_const_inv in H; cbn in H; injection H as <- _; auto);
    (apply lim_bind_ok in H; [|apply kmono_comparable]); destruct H as (y & s2 & _ & H);
    apply lim_const_inv in H; cbn in H; injection H as <- _; destruct (y =? 0); auto.
Qed.

(** Comma and conditional. *)
Lemma run_comma s l r a s1 o : runs E s l (Ok a s1) -> runs E s1 r o -> runs E s (T_COMMA l r) o.
Proof.
  intros Hl Hr. apply lim_runs; [apply Hr|]. cbn [evaluate_1]. unfold eval_comma.
  lbind; [apply lim_ev, Hl|]. apply lim_ev, Hr.
Qed.
Lemma run_comma_left s l r o : runs E s l o -> stops o -> runs E s (T_COMMA l r) o.
Proof.
  intros Hl Ho. apply lim_runs; [apply Hl|]. cbn [evaluate_1]. unfold eval_comma.
  eapply lim_stop; [apply lim_ev, Hl | exact Ho | symmetry; apply recast_id, Ho].
Qed.

Lemma run_infix s c a b v s1 x : runs E s c (Ok v s1) -> number E s1 v x ->
  exists s1', only_gc E s1 s1' /\
    forall o, runs E s1' (if test x then a else b) o <-> runs E s (T_INFIX c a b) o.
Proof.
  intros Hc Hv. destruct (comparable_number _ _ _ _ _ _ Hc Hv) as (s1' & H1 & G1).
  exists s1'. split; auto. intros o. split; intros H.
  - apply lim_runs; [apply H|]. cbn [evaluate_1]. unfold eval_infix. lbind; [exact H1|].
    rewrite truthy_test. destruct (test x); apply lim_ev, H.
  - pose proof (runs_lim _ _ _ _ H) as Hl. cbn [evaluate_1] in Hl. unfold eval_infix in Hl.
    destruct (lim_bind_inv E _ _ _ _ _ _ (kmono_comparable E c) (proj1 H) Hl)
      as [(y & s2 & H2 & H3)|(y & H2 & H3 & _)].
    + pose proof (lim_fun _ _ _ _ _ _ H1 H2) as Heq. injection Heq as <- <-.
      rewrite truthy_test in H3. apply lim_ev_runs; [apply H|]. destruct (test x); exact H3.
    + pose proof (lim_fun _ _ _ _ _ _ H1 H2) as Heq. subst y. discriminate.
Qed.
Lemma run_infix_left s c a b o : runs E s c o -> stops o -> runs E s (T_INFIX c a b) o.
Proof.
  intros Hr Ho. apply lim_runs; [apply Hr|]. cbn [evaluate_1]. unfold eval_infix.
  eapply lim_comparable_stop; [exact Hr | exact Ho | symmetry; apply recast_id, Ho].
Qed.

(** Identifiers. *)
Lemma run_identifier s x : lookup s x <> NULL -> runs E s (T_IDENTIFIER x) (Ok (lookup s x) s).
Proof.
  intros H. apply lim_runs; [discriminate|]. apply lim_const. intros k.
  cbn [evaluate_1]. unfold eval_identifier, resolve_identifier_global, gets, bind. fold (lookup s x).
  destruct (lookup s x); try reflexivity. congruence.
Qed.
Lemma run_identifier_unbound s x : lookup s x = NULL -> runs E s (T_IDENTIFIER x) (Die s).
Proof.
  intros H. apply lim_runs; [discriminate|]. apply lim_const. intros k.
  cbn [evaluate_1]. unfold eval_identifier, resolve_identifier_global, gets, bind. fold (lookup s x).
  rewrite H. reflexivity.
Qed.

(** ** Integer expressions *)

Definition good_env (rho : string -> Z) (e : expr) (s : state) : Prop :=
  forall x, mentions e x -> number E s (lookup s x) (rho x).

Lemma good_env_gc rho e s s' : only_gc E s s' -> good_env rho e s -> good_env rho e s'.
Proof.
  intros Hg H x Hx. rewrite (lookup_gc s s') by apply Hg. eapply number_gc; eauto.
Qed.

Lemma abort_stops s : stops (@Abort tree s).
Proof. intros a s1; discriminate. Qed.
Hint Resolve abort_stops : core.

(** Expression lists. *)
Lemma foldM_app A B (f : B -> A -> M B) l l' : forall acc s, foldM f acc (l ++ l') s = (b <- foldM f acc l ;; foldM f b l') s.
Proof.
  induction l as [|x l IH]; intros acc s; cbn [app foldM]; [reflexivity|]. unfold bind in *. destruct (f acc x s); auto.
Qed.
Lemma run_list s l o : o <> Fuel -> lim E (fun k => foldM (fun _ e => k_ev k e) NULL l) s o -> runs E s (T_EXPR_LIST (CHAIN_HEAD l)) o.
Proof. intros Ho H. apply lim_runs; [exact Ho|]. cbn [evaluate_1]. unfold eval_expr_list. exact H. Qed.
Lemma lim_last acc s t o : runs E s t o -> lim E (fun k => foldM (fun _ e => k_ev k e) acc [t]) s o.
Proof.
  intros H. cbn [foldM]. destruct o as [r s1| | | | | | | |]; [lbind; [apply lim_ev, H|apply lim_const; reflexivity]|..];
    (eapply lim_stop; [apply lim_ev, H|intros ? ? ?; discriminate|reflexivity]).
Qed.
Lemma syntax_group a : syntax (Group a) = T_EXPR_LIST (CHAIN_HEAD (parts a)).
Proof. reflexivity. Qed.

Definition correct rho e : Prop := forall s, good_env rho e s ->
  exists s', only_gc E s s' /\
    match denote rho e with
    | Some v => exists r, runs E s (syntax e) (Ok r s') /\ number E s' r v
    | None => runs E s (syntax e) (Abort s')
    end.
Definition list_correct rho e : Prop := forall s, good_env rho e s ->
  exists s', only_gc E s s' /\
    match denote rho e with
    | Some v => exists r, lim E (fun k => foldM (fun _ e => k_ev k e) NULL (parts e)) s (Ok r s') /\ number E s' r v
    | None => lim E (fun k => foldM (fun _ e => k_ev k e) NULL (parts e)) s (Abort s')
    end.
Lemma list_one rho e : parts e = [syntax e] -> correct rho e -> list_correct rho e.
Proof.
  intros He H s Hs. destruct (H s Hs) as (s' & G & R). exists s'. split; [exact G|]. rewrite He.
  destruct (denote rho e); [destruct R as (r & R & N); exists r; split; [now apply lim_last|exact N]|now apply lim_last].
Qed.
Lemma list_comma rho a b : list_correct rho a -> correct rho b -> list_correct rho (Comma a b).
Proof.
  intros Ha Hb s Hs. destruct (Ha s) as (s1 & G1 & H1); [intros y Hy; apply Hs; cbn; auto|]. cbn [denote parts].
  assert (App : forall o, lim E (fun k => bind (foldM (fun _ e => k_ev k e) NULL (parts a)) (fun acc => foldM (fun _ e => k_ev k e) acc [syntax b])) s o ->
    lim E (fun k => foldM (fun _ e => k_ev k e) NULL (parts a ++ [syntax b])) s o).
  { intros o [n H]. exists n. intros m Hm. rewrite foldM_app. exact (H m Hm). }
  destruct (denote rho a) as [x|].
  2: { exists s1. split; [exact G1|]. apply App. eapply lim_stop; [exact H1|apply abort_stops|reflexivity]. }
  destruct H1 as (r1 & H1 & N1).
  destruct (Hb s1) as (s2 & G2 & H2). { apply (good_env_gc _ _ s); auto. intros y Hy; apply Hs; cbn; auto. }
  exists s2. split; [eauto using gc_only_trans|]. destruct (denote rho b) as [y|].
  - destruct H2 as (r2 & R2 & N2). exists r2. split; [|exact N2]. apply App. lbind; [exact H1|now apply lim_last].
  - apply App. lbind; [exact H1|now apply lim_last].
Qed.

Lemma expr_correct_both rho e : correct rho e /\ list_correct rho e.
Proof.
  induction e; try destruct IHe as [IHe L]; try destruct IHe1 as [IHe1 L1]; try destruct IHe2 as [IHe2 L2]; try destruct IHe3 as [IHe3 L3];
    (match goal with |- correct _ ?x /\ _ => cut (correct rho x); [intros HC; split; [exact HC|first [apply list_one; [reflexivity|exact HC] | now apply list_comma]]|] end);
    intros s Hs; cbn [syntax denote].
  - exists s. split; auto with gco. exists (T_INTEGER z). split; [|constructor].
    apply (number_ev E s _ z). constructor.
  - exists s. split; auto with gco. exists (lookup s x). specialize (Hs x eq_refl). split; auto.
    apply run_identifier. intros Hn. rewrite Hn in Hs. inversion Hs.
  - (* Bin *)
    destruct (IHe1 s) as (s1 & G1 & H1); [intros y Hy; apply Hs; cbn; auto|].
    destruct (denote rho e1) as [x|].
    2: { exists s1. split; auto. apply run_binop_left; auto. }
    destruct H1 as (a & R1 & N1).
    destruct (IHe2 s1) as (s2 & G2 & H2).
    { apply (good_env_gc _ _ s); auto. intros y Hy; apply Hs; cbn; auto. }
    destruct (denote rho e2) as [y|].
    2: { exists s2. split; [eapply gc_only_trans; eauto|]. eapply run_binop_right; eauto. }
    destruct H2 as (b & R2 & N2).
    destruct (run_binop s op _ _ _ _ _ _ x y R1 R2 (number_gc _ _ _ _ _ G2 N1) N2) as (s3 & G3 & R3).
    exists s3. split; [eauto using gc_only_trans|].
    destruct (zop op x y); auto. eexists; split; [exact R3 | constructor].
  - (* Cmp *)
    destruct (IHe1 s) as (s1 & G1 & H1); [intros y Hy; apply Hs; cbn; auto|].
    destruct (denote rho e1) as [x|].
    2: { exists s1. split; auto. apply run_cmp_left; auto. }
    destruct H1 as (a & R1 & N1).
    destruct (run_cmp s op _ (syntax e2) _ _ _ R1 N1) as (s1' & G1' & Hok & Hst).
    destruct (IHe2 s1') as (s2 & G2 & H2).
    { apply (good_env_gc _ _ s); [eauto using gc_only_trans|]. intros y Hy; apply Hs; cbn; auto. }
    destruct (denote rho e2) as [y|].
    2: { exists s2. split; [eauto using gc_only_trans|]. auto. }
    destruct H2 as (b & R2 & N2). destruct (Hok _ _ _ R2 N2) as (s3 & G3 & R3).
    exists s3. split; [eauto using gc_only_trans|]. eexists; split; [exact R3 | constructor].
  - (* Not *)
    destruct (IHe (after_tick E s)) as (s1 & G1 & H1).
    { apply (good_env_gc _ _ s); [auto with gco|]. exact Hs. }
    destruct (denote rho e) as [x|].
    2: { exists s1. split; [eauto using gc_only_trans, gc_only_tick|]. apply run_not_stops; auto. }
    destruct H1 as (a & R1 & N1). destruct (run_not _ _ _ _ _ R1 N1) as (s2 & G2 & R2).
    exists s2. split; [eauto using gc_only_trans, gc_only_tick|]. eexists; split; [exact R2 | constructor].
  - (* Compl *)
    destruct (IHe (after_tick E s)) as (s1 & G1 & H1).
    { apply (good_env_gc _ _ s); [auto with gco|]. exact Hs. }
    destruct (denote rho e) as [x|].
    2: { exists s1. split; [eauto using gc_only_trans, gc_only_tick|]. apply run_compl_stops; auto. }
    destruct H1 as (a & R1 & N1). destruct (run_compl _ _ _ _ _ R1 N1) as (s2 & G2 & R2).
    exists s2. split; [eauto using gc_only_trans, gc_only_tick|]. eexists; split; [exact R2 | constructor].
  - (* And *)
    destruct (IHe1 s) as (s1 & G1 & H1); [intros y Hy; apply Hs; cbn; auto|].
    destruct (denote rho e1) as [x|].
    2: { exists s1. split; auto. apply (run_logic_left false); auto. }
    destruct H1 as (a & R1 & N1). destruct (x =? 0) eqn:Hx.
    + destruct (run_logic_short false s _ (syntax e2) _ _ _ R1 N1 Hx) as (s2 & G2 & R2).
      exists s2. split; [eauto using gc_only_trans|]. eexists; split; [exact R2 | constructor].
    + destruct (run_logic_long false s _ (syntax e2) _ _ _ R1 N1 Hx) as (s1' & G1' & Hok & Hst).
      destruct (IHe2 s1') as (s2 & G2 & H2).
      { apply (good_env_gc _ _ s); [eauto using gc_only_trans|]. intros y Hy; apply Hs; cbn; auto. }
      destruct (denote rho e2) as [y|].
      2: { exists s2. split; [eauto using gc_only_trans|]. apply Hst; auto. }
      destruct H2 as (b & R2 & N2). destruct (Hok _ _ _ R2 N2) as (s3 & G3 & R3).
      exists s3. split; [eauto using gc_only_trans|]. eexists; split; [exact R3 | constructor].
  - (* Or *)
    destruct (IHe1 s) as (s1 & G1 & H1); [intros y Hy; apply Hs; cbn; auto|].
    destruct (denote rho e1) as [x|].
    2: { exists s1. split; auto. apply (run_logic_left true); auto. }
    destruct H1 as (a & R1 & N1). destruct (x =? 0) eqn:Hx; cbn [negb].
    + destruct (run_logic_long true s _ (syntax e2) _ _ _ R1 N1 Hx) as (s1' & G1' & Hok & Hst).
      destruct (IHe2 s1') as (s2 & G2 & H2).
      { apply (good_env_gc _ _ s); [eauto using gc_only_trans|]. intros y Hy; apply Hs; cbn; auto. }
      destruct (denote rho e2) as [y|].
      2: { exists s2. split; [eauto using gc_only_trans|]. apply Hst; auto. }
      destruct H2 as (b & R2 & N2). destruct (Hok _ _ _ R2 N2) as (s3 & G3 & R3).
      exists s3. split; [eauto using gc_only_trans|]. eexists; split; [exact R3 | constructor].
    + destruct (run_logic_short true s _ (syntax e2) _ _ _ R1 N1 Hx) as (s2 & G2 & R2).
      exists s2. split; [eauto using gc_only_trans|]. eexists; split; [exact R2 | constructor].
  - (* Cond *)
    destruct (IHe1 s) as (s1 & G1 & H1); [intros y Hy; apply Hs; cbn; auto|].
    destruct (denote rho e1) as [x|].
    2: { exists s1. split; auto. apply run_infix_left; auto. }
    destruct H1 as (a & R1 & N1).
    destruct (run_infix s _ (syntax e2) (syntax e3) _ _ _ R1 N1) as (s1' & G1' & Hif).
    destruct (test x).
    + destruct (IHe2 s1') as (s2 & G2 & H2).
      { apply (good_env_gc _ _ s); [eauto using gc_only_trans|]. intros y Hy; apply Hs; cbn; auto. }
      exists s2. split; [eauto using gc_only_trans|].
      destruct (denote rho e2) as [y|]; [|apply Hif, H2].
      destruct H2 as (b & R2 & N2). exists b. split; auto. apply Hif, R2.
    + destruct (IHe3 s1') as (s2 & G2 & H2).
      { apply (good_env_gc _ _ s); [eauto using gc_only_trans|]. intros y Hy; apply Hs; cbn; auto. }
      exists s2. split; [eauto using gc_only_trans|].
      destruct (denote rho e3) as [y|]; [|apply Hif, H2].
      destruct H2 as (b & R2 & N2). exists b. split; auto. apply Hif, R2.
  - (* Comma *)
    destruct (IHe1 s) as (s1 & G1 & H1); [intros y Hy; apply Hs; cbn; auto|].
    destruct (denote rho e1) as [x|].
    2: { exists s1. split; auto. apply run_comma_left; auto. }
    destruct H1 as (a & R1 & N1).
    destruct (IHe2 s1) as (s2 & G2 & H2).
    { apply (good_env_gc _ _ s); auto. intros y Hy; apply Hs; cbn; auto. }
    exists s2. split; [eauto using gc_only_trans|].
    destruct (denote rho e2) as [y|].
    + destruct H2 as (b & R2 & N2). exists b. split; auto. eapply run_comma; eauto.
    + eapply run_comma; eauto.
  - (* Group *)
    change (exists s', only_gc E s s' /\ match denote rho e with
      | Some v => exists r, runs E s (T_EXPR_LIST (CHAIN_HEAD (parts e))) (Ok r s') /\ number E s' r v
      | None => runs E s (T_EXPR_LIST (CHAIN_HEAD (parts e))) (Abort s') end).
    destruct (L s Hs) as (s' & G & H). exists s'. split; [exact G|]. destruct (denote rho e).
    + destruct H as (r & H & N). exists r. split; [|exact N]. now apply run_list.
    + now apply run_list.
Qed.
Lemma expr_correct rho e : forall s, good_env rho e s ->
  exists s', only_gc E s s' /\
    match denote rho e with
    | Some v => exists r, runs E s (syntax e) (Ok r s') /\ number E s' r v
    | None => runs E s (syntax e) (Abort s')
    end.
Proof. exact (proj1 (expr_correct_both rho e)). Qed.
End Rules.
