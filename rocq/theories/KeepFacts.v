(** Evaluator-level invariants.

    A relation [R] between states that is reflexive and transitive, contains every
    elementary step except the two that record the value of a return statement with a guarded
    label ([gr]) or the scope of a static declaration with a guarded label ([gs]), and holds across
    the evaluation of those statements themselves, holds across every evaluation.  The
    proofs follow StepsFacts.v function by function. *)
From Coq Require Import ZArith List String Bool Lia.
From Verif Require Import CInt Tree SpecResolver State Eval StepsFacts.
Import ListNotations.
Local Open Scope Z_scope.
Local Open Scope m_scope.

Section Keep.
Variable E : env.
Variables gr gs : Z -> bool.
Variable R : state -> state -> Prop.

Definition allowed (s s' : state) : Prop :=
  (ov_ret s' = ov_ret s \/ exists l v, gr l = false /\ ov_ret s' = (l, v) :: ov_ret s) /\
  (statics s' = statics s \/ exists l x, gs l = false /\ statics s' = (l, x) :: statics s).

Hypothesis Rrefl : forall s, R s s.
Hypothesis Rtrans : forall s1 s2 s3, R s1 s2 -> R s2 s3 -> R s1 s3.
Hypothesis Rone : forall s s', step E s s' -> allowed s s' -> R s s'.

Lemma Rmore s1 s2 s3 : R s1 s2 -> step E s2 s3 -> allowed s2 s3 -> R s1 s3.
Proof. intros H1 H2 H3. eapply Rtrans; eauto. Qed.

Ltac ral := solve [split; left; reflexivity].

Definition ksteps {A} (m : M A) : Prop :=
  forall s s', final (m s) = Some s' -> R s s'.

Lemma ksteps_bind A B (m : M A) (f : A -> M B) :
  ksteps m -> (forall a, ksteps (f a)) -> ksteps (bind m f).
Proof.
  intros Hm Hf s s' H. unfold bind in H. specialize (Hm s).
  destruct (m s) eqn:Em; cbn in H; try discriminate;
    try (apply Hm; cbn; exact H).
  eapply Rtrans; [apply Hm; reflexivity | eapply Hf; exact H].
Qed.

Lemma ksteps_pure A (m : M A) :
  (forall s s', final (m s) = Some s' -> s' = s) -> ksteps m.
Proof. intros H s s' H1. apply H in H1. subst. apply Rrefl. Qed.

Lemma ks_use A (m : M A) s s' : ksteps m -> final (m s) = Some s' -> R s s'.
Proof. intros H; apply H. Qed.

Ltac pure := apply ksteps_pure; cbn; intros; congruence.

Lemma ksteps_ret A (a : A) : ksteps (ret a). Proof. pure. Qed.
Lemma ksteps_die A : ksteps (@die A). Proof. pure. Qed.
Lemma ksteps_abort A : ksteps (@abort A). Proof. pure. Qed.
Lemma ksteps_exit A n : ksteps (@exit_ A n). Proof. pure. Qed.
Lemma ksteps_ub A : ksteps (@ub A). Proof. pure. Qed.
Lemma ksteps_fuel A : ksteps (@out_of_fuel A). Proof. pure. Qed.
Lemma ksteps_unmodelled A : ksteps (@unmodelled A). Proof. pure. Qed.
Lemma ksteps_longjmp A i : ksteps (@longjmp A i). Proof. pure. Qed.
Lemma ksteps_get : ksteps get. Proof. pure. Qed.
Lemma ksteps_gets A (f : state -> A) : ksteps (gets f). Proof. pure. Qed.
Lemma ksteps_top : ksteps top.
Proof. apply ksteps_pure. unfold top. intros s s'. destruct (stack s); cbn; congruence. Qed.
Lemma ksteps_load a n : ksteps (load a n).
Proof. apply ksteps_pure. unfold load. intros s s'. destruct (valid s a n); cbn; congruence. Qed.

Lemma ksteps_modify f : (forall s, R s (f s)) -> ksteps (modify f).
Proof. intros H s s' H1. cbn in H1. inversion H1; subst. apply H. Qed.

Lemma ksteps_tick : ksteps (tick E).
Proof. intros s s' H. inversion H; subst. apply Rone; [apply st_tick|ral]. Qed.

Lemma ksteps_malloc n : ksteps (malloc E n).
Proof.
  intros s s' H. destruct (malloc E n s) eqn:Em; cbn in H;
    try (unfold malloc in Em; destruct (_ && _); congruence); inversion H; subst.
  - apply malloc_inv in Em as (Hok & -> & ->).
    apply Rone; [apply st_malloc, Hok|ral].
  - unfold malloc in Em. destruct (_ && _); inversion Em; subst. apply Rrefl.
Qed.

Lemma ksteps_store a bytes : ksteps (store a bytes).
Proof.
  intros s s'. unfold store. destruct (valid _ _ _) eqn:Ev; cbn; [|discriminate].
  intros H; inversion H; subst. apply Rone; [apply st_store, Ev|ral].
Qed.

Lemma ksteps_fresh_id : ksteps fresh_id.
Proof. intros s s' H. inversion H; subst. apply Rone; [apply st_fresh|ral]. Qed.

Lemma ksteps_pop_ctx : ksteps pop_ctx.
Proof.
  intros s s'. unfold pop_ctx. destruct (stack s) as [|c [|c' cs]] eqn:Es; cbn; intros H;
    inversion H; subst; [apply Rrefl|].
  apply Rone; [eapply st_pop, Es|ral].
Qed.

Lemma ksteps_push_ctx name : ksteps (push_ctx E name).
Proof.
  intros s s' H. cbn in H. inversion H; subst.
  eapply Rmore; [apply Rone; [apply st_tick|ral]| |]; [apply (st_push E (after_tick E s))|ral].
Qed.

Lemma ksteps_upd_top f : (forall s, step E s (with_top f s)) -> ksteps (upd_top f).
Proof.
  intros H s s' H1. destruct (stack s) eqn:Es.
  - unfold upd_top in H1. rewrite Es in H1. discriminate.
  - rewrite upd_top_with in H1 by congruence. inversion H1; subst. apply Rone; [apply H|ral].
Qed.

(** Tracking of a block that is still untracked. *)
Definition ktracks {A} (m : M A) (a : Z) : Prop :=
  forall s s', has_fresh_block a s -> final (m s) = Some s' -> R s s'.

Lemma ktracks_track_alloc a : ktracks (track_alloc E a) a.
Proof.
  intros s s' Hb H. unfold track_alloc, bind in H. cbn [tick] in H.
  destruct (stack s) eqn:Es.
  - unfold upd_top in H. cbn in H. rewrite Es in H. discriminate.
  - rewrite upd_top_with in H by (cbn; congruence).
    cbn in H. inversion H; subst.
    eapply Rmore; [apply Rone; [apply st_tick|ral]| |ral].
    apply (st_track E (after_tick E s) a); [apply fresh_block_tick, Hb | cbn; congruence].
Qed.

Lemma kmalloc_then A n (f : Z -> M A) :
  (forall a, ktracks (f a) a) -> ksteps (bind (malloc E n) f).
Proof.
  intros Hf s s' H. unfold bind in H.
  destruct (malloc E n s) eqn:Em; cbn in H;
    try (unfold malloc in Em; destruct (_ && _); congruence).
  2:{ apply (ksteps_malloc n s). rewrite Em. exact H. }
  pose proof Em as Em'. apply malloc_inv in Em' as (Hok & -> & ->).
  eapply Rtrans; [apply Rone; [apply st_malloc, Hok|ral]|].
  eapply Hf; [|exact H]. exists n. cbn. auto.
Qed.

Lemma ktracks_bind A B (m : M A) (f : A -> M B) a :
  ksteps m ->
  (forall x s s', has_fresh_block a s -> m s = Ok x s' -> has_fresh_block a s') ->
  (forall x, ktracks (f x) a) -> ktracks (bind m f) a.
Proof.
  intros Hm Hb Hf s s' Hs H. unfold bind in H. specialize (Hm s).
  destruct (m s) eqn:Em; cbn in H; try discriminate; try (apply Hm; cbn; exact H).
  eapply Rtrans; [apply Hm; reflexivity|]. eapply Hf; [|exact H]. eapply Hb; eauto.
Qed.

Lemma ksteps_ktracks A (m : M A) a : ksteps m -> ktracks m a.
Proof. intros H s s' _. apply H. Qed.

Lemma ktracks_bind_l A B (m : M A) (f : A -> M B) a :
  ktracks m a -> (forall x, ksteps (f x)) -> ktracks (bind m f) a.
Proof.
  intros Hm Hf s s' Hs H. unfold bind in H. specialize (Hm s).
  destruct (m s) eqn:Em; cbn in H; try discriminate; try (apply Hm; [exact Hs|cbn; exact H]).
  eapply Rtrans; [apply Hm; [exact Hs|reflexivity]|]. eapply Hf; exact H.
Qed.

Lemma ksteps_make_live_var_addr : ksteps (make_live_var_addr E).
Proof.
  unfold make_live_var_addr. apply ksteps_bind; [apply ksteps_tick|]. intros _.
  apply kmalloc_then. intros a. apply ktracks_bind_l; [apply ktracks_track_alloc|].
  intros; apply ksteps_ret.
Qed.

Lemma ksteps_iterM A (f : A -> M unit) l : (forall x, ksteps (f x)) -> ksteps (iterM f l).
Proof.
  intros Hf. induction l; cbn [iterM]; [apply ksteps_ret|].
  apply ksteps_bind; auto.
Qed.
Lemma ksteps_foldM A B (f : B -> A -> M B) l : (forall b x, ksteps (f b x)) ->
  forall acc, ksteps (foldM f acc l).
Proof.
  intros Hf. induction l; cbn [foldM]; intros; [apply ksteps_ret|].
  apply ksteps_bind; auto.
Qed.
Lemma ksteps_mapM A B (f : A -> M B) l : (forall x, ksteps (f x)) -> ksteps (mapM f l).
Proof.
  intros Hf. induction l; cbn [mapM]; [apply ksteps_ret|].
  apply ksteps_bind; auto. intros. apply ksteps_bind; auto. intros. apply ksteps_ret.
Qed.

Create HintDb ks discriminated.
Hint Constants Opaque : ks.
Hint Resolve ksteps_ret ksteps_die ksteps_abort ksteps_exit ksteps_ub ksteps_fuel
  ksteps_unmodelled ksteps_longjmp ksteps_get ksteps_gets ksteps_top ksteps_load ksteps_tick
  ksteps_malloc ksteps_store ksteps_fresh_id ksteps_pop_ctx ksteps_push_ctx
  ksteps_make_live_var_addr : ks.

(** Structural decomposition. *)
Ltac ksgo :=
  repeat first
    [ progress intros
    | match goal with
      | |- ksteps (bind _ _) => apply ksteps_bind
      | |- ksteps (iterM _ _) => apply ksteps_iterM
      | |- ksteps (foldM _ _ _) => apply ksteps_foldM
      | |- ksteps (mapM _ _) => apply ksteps_mapM
      | |- ksteps (match ?x with _ => _ end) => destruct x
      | |- ksteps (let '(_, _) := ?x in _) => destruct x
      | |- ksteps (modify _) => apply ksteps_modify; intros; apply Rone; [constructor|ral]
      | |- ksteps (upd_top _) => apply ksteps_upd_top; intros; constructor
      end
    | solve [auto 2 with ks nocore]
    | progress (cbn beta iota zeta) ].

Lemma ksteps_resolve_identifier_global id : ksteps (resolve_identifier_global id).
Proof. unfold resolve_identifier_global. ksgo. Qed.
Hint Resolve ksteps_resolve_identifier_global : ks.
Lemma ksteps_resolve_identifier_current id : ksteps (resolve_identifier_current id).
Proof. unfold resolve_identifier_current. ksgo. Qed.
Hint Resolve ksteps_resolve_identifier_current : ks.
Lemma ksteps_resolve_compound c g : ksteps (resolve_compound c g).
Proof. unfold resolve_compound. ksgo. Qed.
Hint Resolve ksteps_resolve_compound : ks.

Lemma ksteps_map_identifier id t : ksteps (map_identifier E id t).
Proof.
  intros s s' H. unfold map_identifier, bind, resolve_identifier_current, bind, top in H.
  destruct (stack s) as [|c cs] eqn:Es; [discriminate|].
  destruct id; cbn in H;
    try (destruct (c_idmap c) eqn:Ei; cbn in H; try discriminate; inversion H; subst;
         (apply Rone; [apply (st_tick E)|ral])).
  destruct (resolve_id STR (c_idmap c)) eqn:Er; cbn in H;
    try (inversion H; subst; apply Rrefl).
  unfold map_identifer_cur, bind, upd_top in H. cbn in H. rewrite Es in H. cbn in H. inversion H; subst.
  eapply Rmore; [apply Rone; [apply st_tick|ral]| |ral].
  apply (st_map E (after_tick E s) c cs); auto.
Qed.
Hint Resolve ksteps_map_identifier : ks.

Lemma ksteps_map_compound c t : ksteps (map_compound E c t).
Proof. unfold map_compound. ksgo. Qed.
Hint Resolve ksteps_map_compound : ks.
Lemma ksteps_eval_identifier t : ksteps (eval_identifier t).
Proof. unfold eval_identifier. ksgo. Qed.
Hint Resolve ksteps_eval_identifier : ks.
Lemma ksteps_make_int type a : ksteps (make_int_from_live_var E type a).
Proof. unfold make_int_from_live_var. ksgo. Qed.
Hint Resolve ksteps_make_int : ks.
Lemma ksteps_lv_to_int t : ksteps (lv_to_int E t).
Proof. unfold lv_to_int. ksgo. Qed.
Hint Resolve ksteps_lv_to_int : ks.

Section Knot.
Variable k : knot.
Hypothesis Hev : forall t, ksteps (k_ev k t).
Hypothesis Hhd : forall d t, ksteps (k_hd k d t).
Hypothesis Hinst : forall d b, ksteps (k_inst k d b).
Hypothesis Hext : forall a l i, ksteps (k_ext k a l i).
Hypothesis Hret : forall l e, gr l = true -> ksteps (eval_return k l e).
Hypothesis Hdecl : forall l sp d, gs l = true -> ksteps (evaluate_1 E k (T_DECL l sp d)).
Hint Resolve Hev Hhd Hinst Hext : ks.

Lemma ksteps_get_size_of_type type : ksteps (get_size_of_type E k type).
Proof. unfold get_size_of_type. ksgo. Qed.
Hint Resolve ksteps_get_size_of_type : ks.
Lemma ksteps_convert t : ksteps (convert_to_comparable_type E k t).
Proof. unfold convert_to_comparable_type. ksgo. Qed.
Hint Resolve ksteps_convert : ks.
Lemma ksteps_comparable t : ksteps (comparable E k t).
Proof. unfold comparable. ksgo. Qed.
Hint Resolve ksteps_comparable : ks.
Lemma ksteps_eval_fn_args t : ksteps (eval_fn_args E k t).
Proof. unfold eval_fn_args. ksgo. Qed.
Hint Resolve ksteps_eval_fn_args : ks.
Lemma ksteps_cscript_exit A t : ksteps (@cscript_exit E k A t).
Proof. unfold cscript_exit, get_c_main_return_value. ksgo. Qed.
Hint Resolve ksteps_cscript_exit : ks.
Lemma ksteps_do_return v : ksteps (do_return E k v).
Proof. unfold do_return. ksgo. Qed.
Hint Resolve ksteps_do_return : ks.
Lemma ksteps_evaluate_chain l : ksteps (evaluate_chain E k l).
Proof. induction l; cbn [evaluate_chain]; ksgo. Qed.
Hint Resolve ksteps_evaluate_chain : ks.
Lemma ksteps_evaluate_stmts t : ksteps (evaluate_stmts E k t).
Proof. unfold evaluate_stmts. ksgo. Qed.
Hint Resolve ksteps_evaluate_stmts : ks.
Lemma ksteps_get_ffi_type t : ksteps (get_ffi_type t).
Proof. unfold get_ffi_type. ksgo. Qed.
Hint Resolve ksteps_get_ffi_type : ks.
Lemma ksteps_push_arg n c b p : ksteps (push_arg E n c b p).
Proof. unfold push_arg. ksgo. Qed.
Hint Resolve ksteps_push_arg : ks.
Lemma ksteps_load_scalar c a : ksteps (load_scalar c a).
Proof. unfold load_scalar. ksgo. Qed.
Hint Resolve ksteps_load_scalar : ks.
Lemma ksteps_marshal_arg p n v : ksteps (marshal_arg E p n v).
Proof. unfold marshal_arg. ksgo. Qed.
Hint Resolve ksteps_marshal_arg : ks.
Lemma ksteps_marshal_args p l : forall n, ksteps (marshal_args E p n l).
Proof. induction l; cbn [marshal_args]; ksgo. Qed.
Hint Resolve ksteps_marshal_args : ks.
Lemma ksteps_closure_args types : forall args, ksteps (closure_args E types args).
Proof. induction types; cbn [closure_args]; ksgo. Qed.
Hint Resolve ksteps_closure_args : ks.
Lemma ksteps_closure_entry c args : ksteps (closure_entry E k c args).
Proof. unfold closure_entry. ksgo. Qed.
Hint Resolve ksteps_closure_entry : ks.

Lemma ksteps_ext_step addr args i : ksteps (ext_step E k addr args i).
Proof.
  unfold ext_step. intros s s' H. unfold bind at 1 in H. cbn [get] in H.
  destruct (e_ext E addr args s i) as [| | |a| | |] eqn:Ea; cbn [final] in H.
  4:{ destruct (find (fun b => b_base b =? a) (blocks s)) as [b|] eqn:Ef; [|discriminate].
      destruct (b_tracked b) eqn:Et; [discriminate|].
      unfold bind, modify in H.
      pose proof (find_some _ _ Ef) as [_ Hb]. apply Z.eqb_eq in Hb. subst a.
      eapply Rtrans; [apply Rone; [apply (st_free E s b Ef Et)|ral]|].
      eapply Hext; exact H. }
  all: eapply ks_use; [|exact H]; ksgo.
Qed.
Hint Resolve ksteps_ext_step : ks.

Lemma ksteps_do_ext_call addr args r p : ksteps (do_ext_call E k addr args r p).
Proof. unfold do_ext_call. ksgo. Qed.
Hint Resolve ksteps_do_ext_call : ks.
Lemma ksteps_make_ret_lv t : ksteps (make_ret_lv E t).
Proof. unfold make_ret_lv. ksgo. Qed.
Hint Resolve ksteps_make_ret_lv : ks.
Lemma ksteps_bind_param d v : ksteps (bind_param E k d v).
Proof. unfold bind_param. ksgo. Qed.
Hint Resolve ksteps_bind_param : ks.
Lemma ksteps_bind_params d : forall v, ksteps (bind_params E k d v).
Proof. induction d; intros [|]; cbn [bind_params]; ksgo. Qed.
Hint Resolve ksteps_bind_params : ks.

Lemma drop_until_ksteps i : forall cs s cs', stack s = cs -> drop_until i cs = Some cs' ->
  R s (set_stack (fun _ => cs') s).
Proof.
  induction cs as [|c cs IH]; cbn; [discriminate|].
  intros s cs' Hs. destruct (_ =? _) eqn:Ei; intros H.
  - inversion H; subst. replace (set_stack _ s) with s; [apply Rrefl|].
    destruct s; cbn in *; subst; reflexivity.
  - assert (cs <> []) by (intros ->; discriminate).
    destruct cs as [|c' cs]; [congruence|].
    assert (Hp : step E s (set_stack (fun _ => c' :: cs) s)) by (eapply st_pop; eassumption).
    eapply Rtrans; [apply Rone; [exact Hp|ral]|].
    exact (IH (set_stack (fun _ => c' :: cs) s) cs' eq_refl H).
Qed.

Lemma ksteps_pop_until i : ksteps (pop_until i).
Proof.
  intros s s'. unfold pop_until. destruct (drop_until i (stack s)) eqn:Ed; cbn; intros H;
    inversion H; subst; [|apply Rrefl].
  eapply drop_until_ksteps; [reflexivity|exact Ed].
Qed.
Hint Resolve ksteps_pop_until : ks.

Lemma ksteps_catch A B j (m : M A) (f : A -> M B) (h : M B) :
  ksteps m -> (forall a, ksteps (f a)) -> ksteps h -> ksteps (catch j m f h).
Proof.
  intros Hm Hf Hh s s' H. unfold catch in H. specialize (Hm s).
  destruct (m s) eqn:Em; cbn in H; try discriminate; try (apply Hm; cbn; exact H).
  - eapply Rtrans; [apply Hm; reflexivity | eapply Hf; exact H].
  - destruct (i =? j).
    + eapply Rtrans; [apply Hm; reflexivity | eapply Hh; exact H].
    + apply Hm; exact H.
Qed.

Lemma ksteps_call_defined d a st v : ksteps (call_defined E k d a st v).
Proof. unfold call_defined. ksgo; try (apply ksteps_catch; ksgo). Qed.
Hint Resolve ksteps_call_defined : ks.
Lemma ksteps_handle_builtin b a : ksteps (handle_builtin E k b a).
Proof. unfold handle_builtin. ksgo. Qed.
Hint Resolve ksteps_handle_builtin : ks.
Lemma ksteps_eval_fn_call i a : ksteps (eval_fn_call E k i a).
Proof. unfold eval_fn_call. ksgo. Qed.
Hint Resolve ksteps_eval_fn_call : ks.
Lemma ksteps_make_and_map i t : ksteps (make_and_map_live_var E i t).
Proof. unfold make_and_map_live_var. ksgo. Qed.
Hint Resolve ksteps_make_and_map : ks.
Lemma ksteps_get_array_size i t : ksteps (get_array_size E k i t).
Proof. unfold get_array_size. ksgo. Qed.
Hint Resolve ksteps_get_array_size : ks.
Lemma ksteps_instantiate_array i t b l : ksteps (instantiate_array E i t b l).
Proof. unfold instantiate_array. ksgo. Qed.
Hint Resolve ksteps_instantiate_array : ks.
Lemma ksteps_resolve_specs t : ksteps (resolve_specs E t).
Proof. unfold resolve_specs. ksgo. Qed.
Hint Resolve ksteps_resolve_specs : ks.
Lemma ksteps_map_member i t m : ksteps (map_member E i t m).
Proof. unfold map_member. ksgo. Qed.
Hint Resolve ksteps_map_member : ks.
Lemma ksteps_instantiate_struct_element b ms m : ksteps (instantiate_struct_element E k b ms m).
Proof. unfold instantiate_struct_element. ksgo. Qed.
Hint Resolve ksteps_instantiate_struct_element : ks.
Lemma ksteps_instantiate_struct d b : ksteps (instantiate_struct E k d b).
Proof. unfold instantiate_struct. ksgo. Qed.
Hint Resolve ksteps_instantiate_struct : ks.

Lemma ksteps_alloc_struct d : ksteps (alloc_struct E k d).
Proof.
  unfold alloc_struct. apply ksteps_bind; [ksgo|]. intros s.
  destruct (view_comp s d); [|ksgo].
  apply kmalloc_then. intros a. apply ktracks_bind_l; [apply ktracks_track_alloc|]. ksgo.
Qed.
Hint Resolve ksteps_alloc_struct : ks.

Lemma ksteps_alloc_array i z t : ksteps (alloc_array E k i z t).
Proof.
  unfold alloc_array. apply ksteps_bind; [ksgo|]. intros n.
  apply kmalloc_then. intros a. unfold instantiate_array.
  apply ktracks_bind; [ksgo| |].
  - intros x s s' Hb H. unfold bind in H. cbn [tick] in H.
    change (set_ticks _ _) with (after_tick E s) in H. apply (fresh_block_tick E) in Hb.
    destruct i; try discriminate.
    destruct (make_live_var_addr E (after_tick E s)) eqn:Em; try discriminate.
    apply (fresh_block_make_live_var E _ _ _ _ Hb) in Em.
    unfold store in H. destruct (valid _ _ _); [|discriminate].
    inversion H; subst. exact Em.
  - intros lv. apply ktracks_bind_l; [apply ktracks_track_alloc|]. ksgo.
Qed.
Hint Resolve ksteps_alloc_array : ks.
Lemma ksteps_declare_array i z t : ksteps (declare_array E k i z t).
Proof. unfold declare_array. ksgo. Qed.
Hint Resolve ksteps_declare_array : ks.
Lemma ksteps_declare_other d t : ksteps (declare_other E k d t).
Proof. unfold declare_other. ksgo. Qed.
Hint Resolve ksteps_declare_other : ks.
Lemma ksteps_handle_declarator d t : ksteps (handle_declarator E k d t).
Proof. unfold handle_declarator. ksgo. Qed.
Hint Resolve ksteps_handle_declarator : ks.
Lemma ksteps_map_typedef i : forall t, ksteps (map_typedef E i t).
Proof. induction i; intros; cbn [map_typedef]; ksgo. Qed.
Hint Resolve ksteps_map_typedef : ks.
Lemma ksteps_handle_extern_fn r i a st : ksteps (handle_extern_fn E r i a st).
Proof. unfold handle_extern_fn. ksgo. Qed.
Hint Resolve ksteps_handle_extern_fn : ks.
Lemma ksteps_resolve_symbol i : ksteps (resolve_symbol E i).
Proof. unfold resolve_symbol. ksgo. Qed.
Hint Resolve ksteps_resolve_symbol : ks.
Lemma ksteps_handle_extern_decl t d : ksteps (handle_extern_decl E k t d).
Proof. unfold handle_extern_decl. ksgo. Qed.
Hint Resolve ksteps_handle_extern_decl : ks.
Lemma ksteps_eval_ext_func f : ksteps (eval_ext_func E k f).
Proof. unfold eval_ext_func. ksgo. Qed.
Hint Resolve ksteps_eval_ext_func : ks.
Lemma ksteps_eval_inspect f : ksteps (eval_inspect E k f).
Proof. unfold eval_inspect. ksgo. Qed.
Hint Resolve ksteps_eval_inspect : ks.
Lemma ksteps_each_decl f d : (forall x, ksteps (f x)) -> ksteps (each_decl f d).
Proof. intros. unfold each_decl. ksgo. Qed.
Lemma ksteps_handle_extern_decls t d : ksteps (handle_extern_decls E k t d).
Proof. unfold handle_extern_decls. apply ksteps_each_decl. ksgo. Qed.
Hint Resolve ksteps_handle_extern_decls : ks.
Lemma ksteps_handle_typedef t d : ksteps (handle_typedef E t d).
Proof. unfold handle_typedef. apply ksteps_each_decl. ksgo. Qed.
Hint Resolve ksteps_handle_typedef : ks.
Lemma ksteps_handle_forward_decl c : ksteps (handle_forward_decl E c).
Proof. unfold handle_forward_decl. ksgo. Qed.
Hint Resolve ksteps_handle_forward_decl : ks.

Lemma ksteps_handle_static_decl t l sp d : gs l = false -> ksteps (handle_static_decl E k t l sp d).
Proof.
  intros Hl. unfold handle_static_decl. destruct (static_fn _); [ksgo|].
  apply ksteps_bind; [ksgo|]. intros _.
  apply ksteps_bind; [apply ksteps_each_decl; ksgo|]. intros r.
  intros s s' H. unfold bind at 1 in H. unfold top in H.
  destruct (stack s) as [|c cs] eqn:Es; [discriminate|].
  unfold bind at 1, modify in H.
  eapply Rtrans; [apply Rone; [apply (st_static E s l c cs Es)|split; [left; reflexivity|right; do 2 eexists; split; [exact Hl|reflexivity]]]|].
  eapply ks_use; [|exact H]. ksgo.
Qed.

Lemma ksteps_eval_decl l sp d : gs l = false -> ksteps (eval_decl E k l sp d).
Proof. intros Hl. unfold eval_decl. ksgo; try (apply ksteps_handle_static_decl, Hl); apply ksteps_each_decl; ksgo. Qed.
Lemma ksteps_eval_evaluator_ctx m : ksteps (eval_evaluator_ctx E m).
Proof. unfold eval_evaluator_ctx. ksgo. Qed.
Hint Resolve ksteps_eval_evaluator_ctx : ks.
Lemma ksteps_assign_integer t a r : ksteps (assign_integer E t a r).
Proof. unfold assign_integer. ksgo. Qed.
Hint Resolve ksteps_assign_integer : ks.
Lemma ksteps_assign_float t a r : ksteps (assign_float E t a r).
Proof. unfold assign_float. ksgo. Qed.
Hint Resolve ksteps_assign_float : ks.
Lemma ksteps_assign_ptr a r : ksteps (assign_ptr E a r).
Proof.
  unfold assign_ptr. apply ksteps_bind; [|ksgo]. destruct r; try solve [ksgo].
  apply kmalloc_then. intros p. apply ktracks_bind; [ksgo| |].
  - intros x s s' Hb H. unfold store in H. destruct (valid _ _ _); [|discriminate].
    inversion H; subst. exact Hb.
  - intros _. apply ktracks_bind_l; [apply ktracks_track_alloc|]. ksgo.
Qed.
Hint Resolve ksteps_assign_ptr : ks.
Lemma ksteps_eval_assign l x y : ksteps (eval_assign E k l x y).
Proof. unfold eval_assign. ksgo. Qed.
Hint Resolve ksteps_eval_assign : ks.
Lemma ksteps_live_var_add t a d : ksteps (live_var_add E t a d).
Proof. unfold live_var_add. ksgo. Qed.
Hint Resolve ksteps_live_var_add : ks.
Lemma ksteps_eval_post d e : ksteps (eval_post E k d e).
Proof. unfold eval_post. ksgo. Qed.
Hint Resolve ksteps_eval_post : ks.
Lemma ksteps_eval_pre d e : ksteps (eval_pre E k d e).
Proof. unfold eval_pre. ksgo. Qed.
Hint Resolve ksteps_eval_pre : ks.
Lemma ksteps_eval_negate e : ksteps (eval_negate E k e).
Proof. unfold eval_negate. ksgo. Qed.
Hint Resolve ksteps_eval_negate : ks.
Lemma ksteps_eval_ones_comp e : ksteps (eval_ones_comp E k e).
Proof. unfold eval_ones_comp. ksgo. Qed.
Hint Resolve ksteps_eval_ones_comp : ks.
Lemma ksteps_eval_binop o x y : ksteps (eval_binop E k o x y).
Proof. unfold eval_binop. ksgo. Qed.
Hint Resolve ksteps_eval_binop : ks.
Lemma ksteps_eval_comma x y : ksteps (eval_comma k x y).
Proof. unfold eval_comma. ksgo. Qed.
Hint Resolve ksteps_eval_comma : ks.
Lemma ksteps_eval_cmp o x y : ksteps (eval_cmp E k o x y).
Proof. unfold eval_cmp. ksgo. Qed.
Hint Resolve ksteps_eval_cmp : ks.
Lemma ksteps_eval_break : ksteps eval_break.
Proof.
  intros s s' H. unfold eval_break, bind in H. destruct (stack s) eqn:Es.
  - unfold upd_top in H. rewrite Es in H. discriminate.
  - rewrite upd_top_with in H by congruence. cbn in H. inversion H; subst.
    apply Rone; [apply st_break|ral].
Qed.
Hint Resolve ksteps_eval_break : ks.
Lemma ksteps_eval_logic_or x y : ksteps (eval_logic_or E k x y).
Proof. unfold eval_logic_or. ksgo. Qed.
Hint Resolve ksteps_eval_logic_or : ks.
Lemma ksteps_eval_logic_and x y : ksteps (eval_logic_and E k x y).
Proof. unfold eval_logic_and. ksgo. Qed.
Hint Resolve ksteps_eval_logic_and : ks.
Lemma ksteps_eval_cast x y : ksteps (eval_cast E k x y).
Proof. unfold eval_cast. ksgo. Qed.
Hint Resolve ksteps_eval_cast : ks.
Lemma ksteps_eval_loop_for i c a b : ksteps (eval_loop_for E k i c a b).
Proof. unfold eval_loop_for. ksgo. Qed.
Hint Resolve ksteps_eval_loop_for : ks.
Lemma ksteps_eval_loop_while c b : ksteps (eval_loop_while E k c b).
Proof. unfold eval_loop_while. ksgo. Qed.
Hint Resolve ksteps_eval_loop_while : ks.
Lemma ksteps_eval_infix c a b : ksteps (eval_infix E k c a b).
Proof. unfold eval_infix. ksgo. Qed.
Hint Resolve ksteps_eval_infix : ks.
Lemma ksteps_eval_if c a b : ksteps (eval_if E k c a b).
Proof. unfold eval_if. ksgo. Qed.
Hint Resolve ksteps_eval_if : ks.
Lemma ksteps_eval_return l e : ksteps (eval_return k l e).
Proof.
  destruct (gr l) eqn:Hl; [apply Hret; auto|]. unfold eval_return. 
  apply ksteps_bind; [ksgo|]. intros s. apply ksteps_bind; [ksgo|]. intros v.
  apply ksteps_bind; [|ksgo]. apply ksteps_modify. intros s1. apply Rone; [constructor|].
  split; [right; do 2 eexists; split; [exact Hl|reflexivity]|left; reflexivity].
Qed.
Hint Resolve ksteps_eval_return : ks.
Lemma ksteps_expand_decl_chain d : ksteps (expand_decl_chain E d).
Proof. unfold expand_decl_chain. ksgo. Qed.
Hint Resolve ksteps_expand_decl_chain : ks.
Lemma ksteps_alignment : forall t, ksteps (get_alignment_for_type E k t).
Proof.
  fix IH 1. intros t. destruct t; cbn [get_alignment_for_type]; ksgo.
Qed.
Hint Resolve ksteps_alignment : ks.
Lemma ksteps_set_comp l c : ksteps (set_comp l c).
Proof. unfold set_comp. ksgo. Qed.
Hint Resolve ksteps_set_comp : ks.
Lemma ksteps_upd_comp l f : ksteps (upd_comp l f).
Proof. unfold upd_comp. ksgo. Qed.
Hint Resolve ksteps_upd_comp : ks.
Lemma ksteps_layout_member l kd acc m : ksteps (layout_member E k l kd acc m).
Proof. unfold layout_member. ksgo. Qed.
Hint Resolve ksteps_layout_member : ks.
Lemma ksteps_eval_decl_compound t : ksteps (eval_decl_compound E k t).
Proof. unfold eval_decl_compound. ksgo. Qed.
Hint Resolve ksteps_eval_decl_compound : ks.
Lemma ksteps_enum_member v e : ksteps (enum_member E k v e).
Proof. unfold enum_member. ksgo. Qed.
Hint Resolve ksteps_enum_member : ks.
Lemma ksteps_eval_enumerator n es : ksteps (eval_enumerator E k n es).
Proof. unfold eval_enumerator. ksgo. Qed.
Hint Resolve ksteps_eval_enumerator : ks.
Lemma ksteps_eval_comp_access o m : ksteps (eval_comp_access k o m).
Proof. unfold eval_comp_access. ksgo. Qed.
Hint Resolve ksteps_eval_comp_access : ks.
Lemma ksteps_eval_repl : ksteps (eval_repl E k).
Proof. unfold eval_repl. ksgo. Qed.
Hint Resolve ksteps_eval_repl : ks.
Lemma ksteps_eval_array_access o i : ksteps (eval_array_access E k o i).
Proof. unfold eval_array_access. ksgo. Qed.
Hint Resolve ksteps_eval_array_access : ks.
Lemma ksteps_eval_sizeof e : ksteps (eval_sizeof E k e).
Proof. unfold eval_sizeof. ksgo. Qed.
Hint Resolve ksteps_eval_sizeof : ks.
Lemma ksteps_eval_type_specifier sp d : ksteps (eval_type_specifier E k sp d).
Proof. unfold eval_type_specifier. ksgo. Qed.
Hint Resolve ksteps_eval_type_specifier : ks.
Lemma ksteps_closure_type d : ksteps (closure_type E d).
Proof. unfold closure_type. ksgo. Qed.
Hint Resolve ksteps_closure_type : ks.
Lemma ksteps_get_entry_point f : ksteps (get_entry_point_for_fn E f).
Proof. unfold get_entry_point_for_fn. ksgo. Qed.
Hint Resolve ksteps_get_entry_point : ks.
Lemma ksteps_handle_addr_fn_def f : ksteps (handle_addr_fn_def E f).
Proof. unfold handle_addr_fn_def. ksgo. Qed.
Hint Resolve ksteps_handle_addr_fn_def : ks.
Lemma ksteps_eval_expr_list c : ksteps (eval_expr_list k c).
Proof. unfold eval_expr_list. ksgo. Qed.
Hint Resolve ksteps_eval_expr_list : ks.
Lemma ksteps_eval_addr e : ksteps (eval_addr E k e).
Proof. unfold eval_addr. ksgo. Qed.
Hint Resolve ksteps_eval_addr : ks.
Lemma ksteps_eval_deref e : ksteps (eval_deref E k e).
Proof. unfold eval_deref. ksgo. Qed.
Hint Resolve ksteps_eval_deref : ks.
Lemma ksteps_eval_cpp_include x : ksteps (eval_cpp_include E k x).
Proof.
  unfold eval_cpp_include.
  apply ksteps_bind; [ksgo|]. intros _. apply ksteps_bind; [ksgo|]. intros _.
  apply ksteps_bind; [ksgo|]. intros s0. destruct (e_include E (includes s0)); [|ksgo].
  apply ksteps_bind; [ksgo|]. intros _. apply ksteps_bind; [ksgo|]. intros _.
  apply ksteps_bind; [ksgo|]. intros _.
  intros s s' H. unfold bind at 1 in H. unfold top in H.
  destruct (stack s) as [|c cs] eqn:Es; [discriminate|].
  unfold bind at 1, modify in H.
  eapply Rtrans; [apply Rone; [apply (st_incl_top E s c cs Es)|ral]|].
  eapply ks_use; [|exact H]. ksgo.
Qed.
Hint Resolve ksteps_eval_cpp_include : ks.

Lemma ksteps_evaluate_1 t : ksteps (evaluate_1 E k t).
Proof.
  assert (Hd : forall l sp d, ksteps (evaluate_1 E k (T_DECL l sp d))).
  { intros l sp d. destruct (gs l) eqn:Hl; [apply Hdecl; auto|]. cbn [evaluate_1].
    intros s s' H. destruct (zfind l (statics s)) as [[m al]|];
      (eapply ks_use; [|exact H]); [apply ksteps_eval_evaluator_ctx | apply ksteps_eval_decl, Hl]. }
  destruct t; try solve [apply Hd]; cbn [evaluate_1]; ksgo.
  - intros s s' H. destruct (is_T_DECL_COMPOUND s (E_INCOMP_TYPE l));
      [eapply ks_use; [|exact H]; apply ksteps_eval_decl_compound|]. inversion H; subst. apply Rrefl.
Qed.
End Knot.

(** All functions at every recursion depth. *)
Hypothesis Hret : forall n, (forall t, ksteps (k_ev (K E n) t)) ->
  forall l e, gr l = true -> ksteps (eval_return (K E n) l e).
Hypothesis Hdecl : forall n, (forall t, ksteps (k_ev (K E n) t)) -> (forall d t, ksteps (k_hd (K E n) d t)) ->
  forall l sp d, gs l = true -> ksteps (evaluate_1 E (K E n) (T_DECL l sp d)).

Lemma K_ksteps n :
  (forall t, ksteps (k_ev (K E n) t)) /\
  (forall d t, ksteps (k_hd (K E n) d t)) /\
  (forall d b, ksteps (k_inst (K E n) d b)) /\
  (forall a l i, ksteps (k_ext (K E n) a l i)).
Proof.
  induction n as [|n (IH1 & IH2 & IH3 & IH4)]; cbn [K k_ev k_hd k_inst k_ext].
  - repeat split; intros; apply ksteps_fuel.
  - repeat split; intros; [apply ksteps_evaluate_1 | apply ksteps_handle_declarator
      | apply ksteps_instantiate_struct | apply ksteps_ext_step]; auto.
Qed.

Lemma ev_ksteps n t s s' : final (k_ev (K E n) t s) = Some s' -> R s s'.
Proof. apply K_ksteps. Qed.

Lemma stmts_ksteps n t s s' : final (evaluate_stmts E (K E n) t s) = Some s' -> R s s'.
Proof.
  destruct (K_ksteps n) as (H1 & H2 & H3 & H4). apply ksteps_evaluate_stmts; auto.
Qed.


End Keep.
