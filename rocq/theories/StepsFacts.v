(** Every run of the evaluator is a sequence of elementary state changes.

    [step] lists the elementary changes the model's functions make; [steps] is its
    reflexive transitive closure.  Lemmas [K_steps] say that all four recursive functions,
    at every recursion depth, change the state only through such sequences; an
    invariant of [step] is then an invariant of the whole evaluator. *)
From Coq Require Import ZArith List String Bool Lia.
From Verif Require Import CInt Tree SpecResolver State Eval.
Import ListNotations.
Local Open Scope Z_scope.
Local Open Scope m_scope.

Definition has_fresh_block (a : Z) (s : state) : Prop :=
  exists n, In (mkblock a n false) (blocks s).

Section Steps.
Variable E : env.

Definition after_tick (s : state) : state :=
  set_ticks (fun n => n + 1)
    (set_closures (filter (fun c => negb (zmem (cl_addr c) (e_gc_cl E s))))
    (set_blocks (filter (fun b => negb (collected E s b))) s)).

Definition malloc_ok (s : state) (n : Z) : Prop :=
  let a := e_malloc E s n in
  0 < a /\ a + Z.max n 1 <= 2 ^ 63 /\ forallb (disjoint_blocks a n) (blocks s) = true.

Definition mark (a : Z) (b : block) : block :=
  if b_base b =? a then mkblock (b_base b) (b_size b) true else b.

(** State with the top context updated. *)
Definition with_top (f : ctx -> ctx) (s : state) : state :=
  set_stack (fun cs => match cs with [] => [] | c :: cs => f c :: cs end) s.

Inductive step (s : state) : state -> Prop :=
| st_tick : step s (after_tick s)
| st_malloc n : malloc_ok s n ->
    step s (set_blocks (fun bs => mkblock (e_malloc E s n) n false :: bs) s)
| st_store a bytes : valid s a (Z.of_nat (List.length bytes)) = true ->
    step s (set_mem (fun m => store_bytes m a bytes) s)
| st_push name :
    step s (set_stack (fun cs => mkctx (fresh s) name [] [] [] [] NULL false false :: cs)
             (set_fresh (fun n => n + 1) s))
| st_pop c c' cs : stack s = c :: c' :: cs -> step s (set_stack (fun _ => c' :: cs) s)
| st_track a : has_fresh_block a s -> stack s <> [] ->
    step s (set_blocks (map (mark a)) (with_top (c_set_allocs (fun l => l ++ [a])) s))
| st_map c cs x t : stack s = c :: cs -> resolve_id x (c_idmap c) = NULL ->
    step s (set_stack (fun _ => c_set_idmap (fun m => m ++ [(x, t)]) c :: cs) s)
| st_struct x t : step s (with_top (c_set_structs (fun m => m ++ [(x, t)])) s)
| st_union x t : step s (with_top (c_set_unions (fun m => m ++ [(x, t)])) s)
| st_isfn : step s (with_top (c_set_isfn true) s)
| st_break : step s (set_breaks (fun n => n + 1) (with_top (c_set_break true) s))
| st_retval v : step s (set_stack (set_retval v) s)
| st_fresh : step s (set_fresh (fun n => n + 1) s)
| st_ov_ret l v : step s (set_ov_ret (fun o => (l, v) :: o) s)
| st_ov_asn l v : step s (set_ov_asn (fun o => (l, v) :: o) s)
| st_static l c cs : stack s = c :: cs ->
    step s (set_statics (fun o => (l, (c_idmap c, c_allocs c)) :: o) s)
| st_comp l c : step s (set_comps (fun o => (l, c) :: o) s)
| st_closure c : step s (set_closures (fun l => c :: l) s)
| st_trace e : step s (set_trace (fun l => e :: l) s)
| st_includes x : step s (set_includes (fun l => l ++ [x]) s)
| st_incl_none : step s (set_incl None s)
| st_incl_top c cs : stack s = c :: cs -> step s (set_incl (Some c) s)
| st_free b : find (fun b' => b_base b' =? b_base b) (blocks s) = Some b -> b_tracked b = false ->
    step s (set_blocks (filter (fun b' => negb (b_base b' =? b_base b))) s).

Inductive steps (s : state) : state -> Prop :=
| steps_refl : steps s s
| steps_more s' s'' : steps s s' -> step s' s'' -> steps s s''.

Lemma steps_one s s' : step s s' -> steps s s'.
Proof. intros H. eapply steps_more; [apply steps_refl | exact H]. Qed.

Lemma steps_trans s1 s2 s3 : steps s1 s2 -> steps s2 s3 -> steps s1 s3.
Proof.
  intros H1 H2. induction H2; auto. eapply steps_more; eauto.
Qed.

(** The state of an outcome. *)
Definition final {A} (r : res A) : option state :=
  match r with
  | Ok _ s | Jmp _ s | Die s | Abort s | Exit _ s | NoMemory _ s | Unmodelled s => Some s
  | UB | Fuel => None
  end.

Definition psteps {A} (m : M A) : Prop :=
  forall s s', final (m s) = Some s' -> steps s s'.

Lemma psteps_bind A B (m : M A) (f : A -> M B) :
  psteps m -> (forall a, psteps (f a)) -> psteps (bind m f).
Proof.
  intros Hm Hf s s' H. unfold bind in H. specialize (Hm s).
  destruct (m s) eqn:Em; cbn in H; try discriminate;
    try (apply Hm; cbn; exact H).
  eapply steps_trans; [apply Hm; reflexivity | eapply Hf; exact H].
Qed.

Lemma psteps_pure A (m : M A) :
  (forall s s', final (m s) = Some s' -> s' = s) -> psteps m.
Proof. intros H s s' H1. apply H in H1. subst. apply steps_refl. Qed.

Lemma ps_use A (m : M A) s s' : psteps m -> final (m s) = Some s' -> steps s s'.
Proof. intros H; apply H. Qed.

Ltac pure := apply psteps_pure; cbn; intros; congruence.

Lemma psteps_ret A (a : A) : psteps (ret a). Proof. pure. Qed.
Lemma psteps_die A : psteps (@die A). Proof. pure. Qed.
Lemma psteps_abort A : psteps (@abort A). Proof. pure. Qed.
Lemma psteps_exit A n : psteps (@exit_ A n). Proof. pure. Qed.
Lemma psteps_ub A : psteps (@ub A). Proof. pure. Qed.
Lemma psteps_fuel A : psteps (@out_of_fuel A). Proof. pure. Qed.
Lemma psteps_unmodelled A : psteps (@unmodelled A). Proof. pure. Qed.
Lemma psteps_longjmp A i : psteps (@longjmp A i). Proof. pure. Qed.
Lemma psteps_get : psteps get. Proof. pure. Qed.
Lemma psteps_gets A (f : state -> A) : psteps (gets f). Proof. pure. Qed.
Lemma psteps_top : psteps top.
Proof. apply psteps_pure. unfold top. intros s s'. destruct (stack s); cbn; congruence. Qed.
Lemma psteps_load a n : psteps (load a n).
Proof. apply psteps_pure. unfold load. intros s s'. destruct (valid s a n); cbn; congruence. Qed.

Lemma psteps_modify f : (forall s, steps s (f s)) -> psteps (modify f).
Proof. intros H s s' H1. cbn in H1. inversion H1; subst. apply H. Qed.

Lemma psteps_tick : psteps (tick E).
Proof. intros s s' H. inversion H; subst. apply steps_one. apply st_tick. Qed.

Lemma malloc_inv n s r s' : malloc E n s = Ok r s' ->
  malloc_ok s n /\ r = e_malloc E s n /\
  s' = set_blocks (fun bs => mkblock (e_malloc E s n) n false :: bs) s.
Proof.
  unfold malloc. destruct (_ && _) eqn:Ec; [|discriminate].
  intros H; inversion H; subst.
  apply andb_true_iff in Ec as [Ec Hd]. apply andb_true_iff in Ec as [H1 H2].
  apply Z.ltb_lt in H1. apply Z.leb_le in H2. repeat split; auto.
Qed.

Lemma psteps_malloc n : psteps (malloc E n).
Proof.
  intros s s' H. destruct (malloc E n s) eqn:Em; cbn in H;
    try (unfold malloc in Em; destruct (_ && _); congruence); inversion H; subst.
  - apply malloc_inv in Em as (Hok & -> & ->).
    apply steps_one, st_malloc, Hok.
  - unfold malloc in Em. destruct (_ && _); inversion Em; subst. apply steps_refl.
Qed.

Lemma psteps_store a bytes : psteps (store a bytes).
Proof.
  intros s s'. unfold store. destruct (valid _ _ _) eqn:Ev; cbn; [|discriminate].
  intros H; inversion H; subst. apply steps_one, st_store, Ev.
Qed.

Lemma psteps_fresh_id : psteps fresh_id.
Proof. intros s s' H. inversion H; subst. apply steps_one, st_fresh. Qed.

Lemma psteps_pop_ctx : psteps pop_ctx.
Proof.
  intros s s'. unfold pop_ctx. destruct (stack s) as [|c [|c' cs]] eqn:Es; cbn; intros H;
    inversion H; subst; [apply steps_refl|].
  apply steps_one. eapply st_pop, Es.
Qed.

Lemma psteps_push_ctx name : psteps (push_ctx E name).
Proof.
  intros s s' H. cbn in H. inversion H; subst.
  eapply steps_more; [apply steps_one, st_tick|]. apply (st_push (after_tick s)).
Qed.

Lemma upd_top_with f s : stack s <> [] -> upd_top f s = Ok tt (with_top f s).
Proof. unfold upd_top, with_top, set_stack. destruct (stack s); congruence. Qed.

Lemma psteps_upd_top f : (forall s, step s (with_top f s)) -> psteps (upd_top f).
Proof.
  intros H s s' H1. destruct (stack s) eqn:Es.
  - unfold upd_top in H1. rewrite Es in H1. discriminate.
  - rewrite upd_top_with in H1 by congruence. inversion H1; subst. apply steps_one, H.
Qed.

(** Tracking of a block that is still untracked. *)
Definition tracks {A} (m : M A) (a : Z) : Prop :=
  forall s s', has_fresh_block a s -> final (m s) = Some s' -> steps s s'.

Lemma fresh_block_tick a s : has_fresh_block a s -> has_fresh_block a (after_tick s).
Proof.
  intros [n H]. exists n. cbn. apply filter_In. split; auto.
Qed.

Lemma tracks_track_alloc a : tracks (track_alloc E a) a.
Proof.
  intros s s' Hb H. unfold track_alloc, bind in H. cbn [tick] in H.
  destruct (stack s) eqn:Es.
  - unfold upd_top in H. cbn in H. rewrite Es in H. discriminate.
  - rewrite upd_top_with in H by (cbn; congruence).
    cbn in H. inversion H; subst.
    eapply steps_more; [apply steps_one, st_tick|].
    apply (st_track (after_tick s) a); [apply fresh_block_tick, Hb | cbn; congruence].
Qed.

Lemma malloc_then A n (f : Z -> M A) :
  (forall a, tracks (f a) a) -> psteps (bind (malloc E n) f).
Proof.
  intros Hf s s' H. unfold bind in H.
  destruct (malloc E n s) eqn:Em; cbn in H;
    try (unfold malloc in Em; destruct (_ && _); congruence).
  2:{ apply (psteps_malloc n s). rewrite Em. exact H. }
  pose proof Em as Em'. apply malloc_inv in Em' as (Hok & -> & ->).
  eapply steps_trans; [apply steps_one, st_malloc, Hok|].
  eapply Hf; [|exact H]. exists n. cbn. auto.
Qed.

Lemma tracks_bind A B (m : M A) (f : A -> M B) a :
  psteps m ->
  (forall x s s', has_fresh_block a s -> m s = Ok x s' -> has_fresh_block a s') ->
  (forall x, tracks (f x) a) -> tracks (bind m f) a.
Proof.
  intros Hm Hb Hf s s' Hs H. unfold bind in H. specialize (Hm s).
  destruct (m s) eqn:Em; cbn in H; try discriminate; try (apply Hm; cbn; exact H).
  eapply steps_trans; [apply Hm; reflexivity|]. eapply Hf; [|exact H]. eapply Hb; eauto.
Qed.

Lemma psteps_tracks A (m : M A) a : psteps m -> tracks m a.
Proof. intros H s s' _. apply H. Qed.

Lemma tracks_bind_l A B (m : M A) (f : A -> M B) a :
  tracks m a -> (forall x, psteps (f x)) -> tracks (bind m f) a.
Proof.
  intros Hm Hf s s' Hs H. unfold bind in H. specialize (Hm s).
  destruct (m s) eqn:Em; cbn in H; try discriminate; try (apply Hm; [exact Hs|cbn; exact H]).
  eapply steps_trans; [apply Hm; [exact Hs|reflexivity]|]. eapply Hf; exact H.
Qed.

Lemma psteps_make_live_var_addr : psteps (make_live_var_addr E).
Proof.
  unfold make_live_var_addr. apply psteps_bind; [apply psteps_tick|]. intros _.
  apply malloc_then. intros a. apply tracks_bind_l; [apply tracks_track_alloc|].
  intros; apply psteps_ret.
Qed.

Lemma psteps_iterM A (f : A -> M unit) l : (forall x, psteps (f x)) -> psteps (iterM f l).
Proof.
  intros Hf. induction l; cbn [iterM]; [apply psteps_ret|].
  apply psteps_bind; auto.
Qed.
Lemma psteps_foldM A B (f : B -> A -> M B) l : (forall b x, psteps (f b x)) ->
  forall acc, psteps (foldM f acc l).
Proof.
  intros Hf. induction l; cbn [foldM]; intros; [apply psteps_ret|].
  apply psteps_bind; auto.
Qed.
Lemma psteps_mapM A B (f : A -> M B) l : (forall x, psteps (f x)) -> psteps (mapM f l).
Proof.
  intros Hf. induction l; cbn [mapM]; [apply psteps_ret|].
  apply psteps_bind; auto. intros. apply psteps_bind; auto. intros. apply psteps_ret.
Qed.

Create HintDb ps discriminated.
Hint Constants Opaque : ps.
Hint Resolve psteps_ret psteps_die psteps_abort psteps_exit psteps_ub psteps_fuel
  psteps_unmodelled psteps_longjmp psteps_get psteps_gets psteps_top psteps_load psteps_tick
  psteps_malloc psteps_store psteps_fresh_id psteps_pop_ctx psteps_push_ctx
  psteps_make_live_var_addr : ps.

(** Structural decomposition. *)
Ltac psgo :=
  repeat first
    [ progress intros
    | match goal with
      | |- psteps (bind _ _) => apply psteps_bind
      | |- psteps (iterM _ _) => apply psteps_iterM
      | |- psteps (foldM _ _ _) => apply psteps_foldM
      | |- psteps (mapM _ _) => apply psteps_mapM
      | |- psteps (match ?x with _ => _ end) => destruct x
      | |- psteps (let '(_, _) := ?x in _) => destruct x
      | |- psteps (modify _) => apply psteps_modify; intros; apply steps_one; constructor
      | |- psteps (upd_top _) => apply psteps_upd_top; intros; constructor
      end
    | solve [auto 2 with ps nocore]
    | progress (cbn beta iota zeta) ].

Lemma psteps_resolve_identifier_global id : psteps (resolve_identifier_global id).
Proof. unfold resolve_identifier_global. psgo. Qed.
Hint Resolve psteps_resolve_identifier_global : ps.
Lemma psteps_resolve_identifier_current id : psteps (resolve_identifier_current id).
Proof. unfold resolve_identifier_current. psgo. Qed.
Hint Resolve psteps_resolve_identifier_current : ps.
Lemma psteps_resolve_compound c g : psteps (resolve_compound c g).
Proof. unfold resolve_compound. psgo. Qed.
Hint Resolve psteps_resolve_compound : ps.

Lemma psteps_map_identifier id t : psteps (map_identifier E id t).
Proof.
  intros s s' H. unfold map_identifier, bind, resolve_identifier_current, bind, top in H.
  destruct (stack s) as [|c cs] eqn:Es; [discriminate|].
  destruct id; cbn in H;
    try (destruct (c_idmap c); cbn in H; try discriminate; inversion H; subst;
         apply steps_one, st_tick).
  destruct (resolve_id STR (c_idmap c)) eqn:Er; cbn in H;
    try (inversion H; subst; apply steps_refl).
  unfold map_identifer_cur, bind, upd_top in H. cbn in H. rewrite Es in H. cbn in H. inversion H; subst.
  eapply steps_more; [apply steps_one, st_tick|].
  apply (st_map (after_tick s) c cs); auto.
Qed.
Hint Resolve psteps_map_identifier : ps.

Lemma psteps_map_compound c t : psteps (map_compound E c t).
Proof. unfold map_compound. psgo. Qed.
Hint Resolve psteps_map_compound : ps.
Lemma psteps_eval_identifier t : psteps (eval_identifier t).
Proof. unfold eval_identifier. psgo. Qed.
Hint Resolve psteps_eval_identifier : ps.
Lemma psteps_make_int type a : psteps (make_int_from_live_var E type a).
Proof. unfold make_int_from_live_var. psgo. Qed.
Hint Resolve psteps_make_int : ps.
Lemma psteps_lv_to_int t : psteps (lv_to_int E t).
Proof. unfold lv_to_int. psgo. Qed.
Hint Resolve psteps_lv_to_int : ps.

Section Knot.
Variable k : knot.
Hypothesis Hev : forall t, psteps (k_ev k t).
Hypothesis Hhd : forall d t, psteps (k_hd k d t).
Hypothesis Hinst : forall d b, psteps (k_inst k d b).
Hypothesis Hext : forall a l i, psteps (k_ext k a l i).
Hint Resolve Hev Hhd Hinst Hext : ps.

Lemma psteps_get_size_of_type type : psteps (get_size_of_type E k type).
Proof. unfold get_size_of_type. psgo. Qed.
Hint Resolve psteps_get_size_of_type : ps.
Lemma psteps_convert t : psteps (convert_to_comparable_type E k t).
Proof. unfold convert_to_comparable_type. psgo. Qed.
Hint Resolve psteps_convert : ps.
Lemma psteps_comparable t : psteps (comparable E k t).
Proof. unfold comparable. psgo. Qed.
Hint Resolve psteps_comparable : ps.
Lemma psteps_eval_fn_args t : psteps (eval_fn_args E k t).
Proof. unfold eval_fn_args. psgo. Qed.
Hint Resolve psteps_eval_fn_args : ps.
Lemma psteps_cscript_exit A t : psteps (@cscript_exit E k A t).
Proof. unfold cscript_exit, get_c_main_return_value. psgo. Qed.
Hint Resolve psteps_cscript_exit : ps.
Lemma psteps_do_return v : psteps (do_return E k v).
Proof. unfold do_return. psgo. Qed.
Hint Resolve psteps_do_return : ps.
Lemma psteps_evaluate_chain l : psteps (evaluate_chain E k l).
Proof. induction l; cbn [evaluate_chain]; psgo. Qed.
Hint Resolve psteps_evaluate_chain : ps.
Lemma psteps_evaluate_stmts t : psteps (evaluate_stmts E k t).
Proof. unfold evaluate_stmts. psgo. Qed.
Hint Resolve psteps_evaluate_stmts : ps.
Lemma psteps_get_ffi_type t : psteps (get_ffi_type t).
Proof. unfold get_ffi_type. psgo. Qed.
Hint Resolve psteps_get_ffi_type : ps.
Lemma psteps_push_arg n c b p : psteps (push_arg E n c b p).
Proof. unfold push_arg. psgo. Qed.
Hint Resolve psteps_push_arg : ps.
Lemma psteps_load_scalar c a : psteps (load_scalar c a).
Proof. unfold load_scalar. psgo. Qed.
Hint Resolve psteps_load_scalar : ps.
Lemma psteps_marshal_arg p n v : psteps (marshal_arg E p n v).
Proof. unfold marshal_arg. psgo. Qed.
Hint Resolve psteps_marshal_arg : ps.
Lemma psteps_marshal_args p l : forall n, psteps (marshal_args E p n l).
Proof. induction l; cbn [marshal_args]; psgo. Qed.
Hint Resolve psteps_marshal_args : ps.
Lemma psteps_closure_args types : forall args, psteps (closure_args E types args).
Proof. induction types; cbn [closure_args]; psgo. Qed.
Hint Resolve psteps_closure_args : ps.
Lemma psteps_closure_entry c args : psteps (closure_entry E k c args).
Proof. unfold closure_entry. psgo. Qed.
Hint Resolve psteps_closure_entry : ps.

Lemma psteps_ext_step addr args i : psteps (ext_step E k addr args i).
Proof.
  unfold ext_step. intros s s' H. unfold bind at 1 in H. cbn [get] in H.
  destruct (e_ext E addr args s i) as [| | |a| | |] eqn:Ea; cbn [final] in H.
  4:{ destruct (find (fun b => b_base b =? a) (blocks s)) as [b|] eqn:Ef; [|discriminate].
      destruct (b_tracked b) eqn:Et; [discriminate|].
      unfold bind, modify in H.
      pose proof (find_some _ _ Ef) as [_ Hb]. apply Z.eqb_eq in Hb. subst a.
      eapply steps_trans; [apply steps_one, (st_free s b Ef Et)|].
      eapply Hext; exact H. }
  all: eapply ps_use; [|exact H]; psgo.
Qed.
Hint Resolve psteps_ext_step : ps.

Lemma psteps_do_ext_call addr args r p : psteps (do_ext_call E k addr args r p).
Proof. unfold do_ext_call. psgo. Qed.
Hint Resolve psteps_do_ext_call : ps.
Lemma psteps_make_ret_lv t : psteps (make_ret_lv E t).
Proof. unfold make_ret_lv. psgo. Qed.
Hint Resolve psteps_make_ret_lv : ps.
Lemma psteps_bind_param d v : psteps (bind_param E k d v).
Proof. unfold bind_param. psgo. Qed.
Hint Resolve psteps_bind_param : ps.
Lemma psteps_bind_params d : forall v, psteps (bind_params E k d v).
Proof. induction d; intros [|]; cbn [bind_params]; psgo. Qed.
Hint Resolve psteps_bind_params : ps.

Lemma drop_until_nonempty i cs cs' : drop_until i cs = Some cs' -> cs' <> [].
Proof.
  induction cs as [|c cs IH]; cbn; [discriminate|].
  destruct (_ =? _); auto. intros H; inversion H; congruence.
Qed.

Lemma drop_until_steps i : forall cs s cs', stack s = cs -> drop_until i cs = Some cs' ->
  steps s (set_stack (fun _ => cs') s).
Proof.
  induction cs as [|c cs IH]; cbn; [discriminate|].
  intros s cs' Hs. destruct (_ =? _) eqn:Ei; intros H.
  - inversion H; subst. replace (set_stack _ s) with s; [apply steps_refl|].
    destruct s; cbn in *; subst; reflexivity.
  - assert (cs <> []) by (intros ->; discriminate).
    destruct cs as [|c' cs]; [congruence|].
    assert (Hp : step s (set_stack (fun _ => c' :: cs) s)) by (eapply st_pop; eassumption).
    eapply steps_trans; [apply steps_one, Hp|].
    exact (IH (set_stack (fun _ => c' :: cs) s) cs' eq_refl H).
Qed.

Lemma psteps_pop_until i : psteps (pop_until i).
Proof.
  intros s s'. unfold pop_until. destruct (drop_until i (stack s)) eqn:Ed; cbn; intros H;
    inversion H; subst; [|apply steps_refl].
  eapply drop_until_steps; [reflexivity|exact Ed].
Qed.
Hint Resolve psteps_pop_until : ps.

Lemma psteps_catch A B j (m : M A) (f : A -> M B) (h : M B) :
  psteps m -> (forall a, psteps (f a)) -> psteps h -> psteps (catch j m f h).
Proof.
  intros Hm Hf Hh s s' H. unfold catch in H. specialize (Hm s).
  destruct (m s) eqn:Em; cbn in H; try discriminate; try (apply Hm; cbn; exact H).
  - eapply steps_trans; [apply Hm; reflexivity | eapply Hf; exact H].
  - destruct (i =? j).
    + eapply steps_trans; [apply Hm; reflexivity | eapply Hh; exact H].
    + apply Hm; exact H.
Qed.

Lemma psteps_call_defined d a st v : psteps (call_defined E k d a st v).
Proof. unfold call_defined. psgo; try (apply psteps_catch; psgo). Qed.
Hint Resolve psteps_call_defined : ps.
Lemma psteps_handle_builtin b a : psteps (handle_builtin E k b a).
Proof. unfold handle_builtin. psgo. Qed.
Hint Resolve psteps_handle_builtin : ps.
Lemma psteps_eval_fn_call i a : psteps (eval_fn_call E k i a).
Proof. unfold eval_fn_call. psgo. Qed.
Hint Resolve psteps_eval_fn_call : ps.
Lemma psteps_make_and_map i t : psteps (make_and_map_live_var E i t).
Proof. unfold make_and_map_live_var. psgo. Qed.
Hint Resolve psteps_make_and_map : ps.
Lemma psteps_get_array_size i t : psteps (get_array_size E k i t).
Proof. unfold get_array_size. psgo. Qed.
Hint Resolve psteps_get_array_size : ps.
Lemma psteps_instantiate_array i t b l : psteps (instantiate_array E i t b l).
Proof. unfold instantiate_array. psgo. Qed.
Hint Resolve psteps_instantiate_array : ps.
Lemma psteps_resolve_specs t : psteps (resolve_specs E t).
Proof. unfold resolve_specs. psgo. Qed.
Hint Resolve psteps_resolve_specs : ps.
Lemma psteps_map_member i t m : psteps (map_member E i t m).
Proof. unfold map_member. psgo. Qed.
Hint Resolve psteps_map_member : ps.
Lemma psteps_instantiate_struct_element b ms m : psteps (instantiate_struct_element E k b ms m).
Proof. unfold instantiate_struct_element. psgo. Qed.
Hint Resolve psteps_instantiate_struct_element : ps.
Lemma psteps_instantiate_struct d b : psteps (instantiate_struct E k d b).
Proof. unfold instantiate_struct. psgo. Qed.
Hint Resolve psteps_instantiate_struct : ps.

Lemma psteps_alloc_struct d : psteps (alloc_struct E k d).
Proof.
  unfold alloc_struct. apply psteps_bind; [psgo|]. intros s.
  destruct (view_comp s d); [|psgo].
  apply malloc_then. intros a. apply tracks_bind_l; [apply tracks_track_alloc|]. psgo.
Qed.
Hint Resolve psteps_alloc_struct : ps.

Lemma fresh_block_make_live_var a x s s' :
  has_fresh_block a s -> make_live_var_addr E s = Ok x s' -> has_fresh_block a s'.
Proof.
  intros Hb H. unfold make_live_var_addr, bind in H. cbn [tick] in H.
  change (set_ticks _ _) with (after_tick s) in H.
  pose proof (fresh_block_tick _ _ Hb) as Hb1.
  destruct (malloc E 16 (after_tick s)) as [a0 s1| | | | | | | |] eqn:Em; try discriminate.
  apply malloc_inv in Em as ((Hpos & _ & Hd) & Ha & Hs1).
  assert (Hne : a <> a0).
  { destruct Hb1 as [n Hin]. rewrite forallb_forall in Hd. apply Hd in Hin.
    unfold disjoint_blocks in Hin. rewrite <- Ha in Hin.
    cbn [b_base b_size] in Hin.
    apply orb_true_iff in Hin as [Hin|Hin]; apply Z.leb_le in Hin; lia. }
  assert (Hb2 : has_fresh_block a s1).
  { destruct Hb1 as [n Hin]. exists n. subst s1. cbn. right; exact Hin. }
  unfold track_alloc, bind in H. cbn [tick] in H.
  change (set_ticks _ _) with (after_tick s1) in H.
  apply fresh_block_tick in Hb2.
  destruct (stack (after_tick s1)) eqn:Es.
  { unfold upd_top in H. rewrite Es in H. discriminate. }
  rewrite upd_top_with in H by congruence.
  cbn [bind modify ret] in H. unfold modify, ret in H. inversion H; subst.
  destruct Hb2 as [n Hin]. exists n. unfold set_blocks at 1. cbn [blocks].
  apply in_map_iff. exists (mkblock a n false). split; [|exact Hin].
  cbn [b_base]. destruct (Z.eqb_spec a (e_malloc E (after_tick s) 16)); congruence.
Qed.

Lemma psteps_alloc_array i z t : psteps (alloc_array E k i z t).
Proof.
  unfold alloc_array. apply psteps_bind; [psgo|]. intros n.
  apply malloc_then. intros a. unfold instantiate_array.
  apply tracks_bind; [psgo| |].
  - intros x s s' Hb H. unfold bind in H. cbn [tick] in H.
    change (set_ticks _ _) with (after_tick s) in H. apply fresh_block_tick in Hb.
    destruct i; try discriminate.
    destruct (make_live_var_addr E (after_tick s)) eqn:Em; try discriminate.
    apply (fresh_block_make_live_var _ _ _ _ Hb) in Em.
    unfold store in H. destruct (valid _ _ _); [|discriminate].
    inversion H; subst. exact Em.
  - intros lv. apply tracks_bind_l; [apply tracks_track_alloc|]. psgo.
Qed.
Hint Resolve psteps_alloc_array : ps.
Lemma psteps_declare_array i z t : psteps (declare_array E k i z t).
Proof. unfold declare_array. psgo. Qed.
Hint Resolve psteps_declare_array : ps.
Lemma psteps_declare_other d t : psteps (declare_other E k d t).
Proof. unfold declare_other. psgo. Qed.
Hint Resolve psteps_declare_other : ps.
Lemma psteps_handle_declarator d t : psteps (handle_declarator E k d t).
Proof. unfold handle_declarator. psgo. Qed.
Hint Resolve psteps_handle_declarator : ps.
Lemma psteps_map_typedef i : forall t, psteps (map_typedef E i t).
Proof. induction i; intros; cbn [map_typedef]; psgo. Qed.
Hint Resolve psteps_map_typedef : ps.
Lemma psteps_handle_extern_fn r i a st : psteps (handle_extern_fn E r i a st).
Proof. unfold handle_extern_fn. psgo. Qed.
Hint Resolve psteps_handle_extern_fn : ps.
Lemma psteps_resolve_symbol i : psteps (resolve_symbol E i).
Proof. unfold resolve_symbol. psgo. Qed.
Hint Resolve psteps_resolve_symbol : ps.
Lemma psteps_handle_extern_decl t d : psteps (handle_extern_decl E k t d).
Proof. unfold handle_extern_decl. psgo. Qed.
Hint Resolve psteps_handle_extern_decl : ps.
Lemma psteps_eval_ext_func f : psteps (eval_ext_func E k f).
Proof. unfold eval_ext_func. psgo. Qed.
Hint Resolve psteps_eval_ext_func : ps.
Lemma psteps_eval_inspect f : psteps (eval_inspect E k f).
Proof. unfold eval_inspect. psgo. Qed.
Hint Resolve psteps_eval_inspect : ps.
Lemma psteps_each_decl f d : (forall x, psteps (f x)) -> psteps (each_decl f d).
Proof. intros. unfold each_decl. psgo. Qed.
Lemma psteps_handle_extern_decls t d : psteps (handle_extern_decls E k t d).
Proof. unfold handle_extern_decls. apply psteps_each_decl. psgo. Qed.
Hint Resolve psteps_handle_extern_decls : ps.
Lemma psteps_handle_typedef t d : psteps (handle_typedef E t d).
Proof. unfold handle_typedef. apply psteps_each_decl. psgo. Qed.
Hint Resolve psteps_handle_typedef : ps.
Lemma psteps_handle_forward_decl c : psteps (handle_forward_decl E c).
Proof. unfold handle_forward_decl. psgo. Qed.
Hint Resolve psteps_handle_forward_decl : ps.

Lemma psteps_handle_static_decl t l sp d : psteps (handle_static_decl E k t l sp d).
Proof.
  unfold handle_static_decl. destruct (static_fn _); [psgo|].
  apply psteps_bind; [psgo|]. intros _.
  apply psteps_bind; [apply psteps_each_decl; psgo|]. intros r.
  intros s s' H. unfold bind at 1 in H. unfold top in H.
  destruct (stack s) as [|c cs] eqn:Es; [discriminate|].
  unfold bind at 1, modify in H.
  eapply steps_trans; [apply steps_one, (st_static s l c cs Es)|].
  eapply ps_use; [|exact H]. psgo.
Qed.
Hint Resolve psteps_handle_static_decl : ps.

Lemma psteps_eval_decl l sp d : psteps (eval_decl E k l sp d).
Proof. unfold eval_decl. psgo; apply psteps_each_decl; psgo. Qed.
Hint Resolve psteps_eval_decl : ps.
Lemma psteps_eval_evaluator_ctx m : psteps (eval_evaluator_ctx E m).
Proof. unfold eval_evaluator_ctx. psgo. Qed.
Hint Resolve psteps_eval_evaluator_ctx : ps.
Lemma psteps_assign_integer t a r : psteps (assign_integer E t a r).
Proof. unfold assign_integer. psgo. Qed.
Hint Resolve psteps_assign_integer : ps.
Lemma psteps_assign_float t a r : psteps (assign_float E t a r).
Proof. unfold assign_float. psgo. Qed.
Hint Resolve psteps_assign_float : ps.
Lemma psteps_assign_ptr a r : psteps (assign_ptr E a r).
Proof.
  unfold assign_ptr. apply psteps_bind; [|psgo]. destruct r; try solve [psgo].
  apply malloc_then. intros p. apply tracks_bind; [psgo| |].
  - intros x s s' Hb H. unfold store in H. destruct (valid _ _ _); [|discriminate].
    inversion H; subst. exact Hb.
  - intros _. apply tracks_bind_l; [apply tracks_track_alloc|]. psgo.
Qed.
Hint Resolve psteps_assign_ptr : ps.
Lemma psteps_eval_assign l x y : psteps (eval_assign E k l x y).
Proof. unfold eval_assign. psgo. Qed.
Hint Resolve psteps_eval_assign : ps.
Lemma psteps_live_var_add t a d : psteps (live_var_add E t a d).
Proof. unfold live_var_add. psgo. Qed.
Hint Resolve psteps_live_var_add : ps.
Lemma psteps_eval_post d e : psteps (eval_post E k d e).
Proof. unfold eval_post. psgo. Qed.
Hint Resolve psteps_eval_post : ps.
Lemma psteps_eval_pre d e : psteps (eval_pre E k d e).
Proof. unfold eval_pre. psgo. Qed.
Hint Resolve psteps_eval_pre : ps.
Lemma psteps_eval_negate e : psteps (eval_negate E k e).
Proof. unfold eval_negate. psgo. Qed.
Hint Resolve psteps_eval_negate : ps.
Lemma psteps_eval_ones_comp e : psteps (eval_ones_comp E k e).
Proof. unfold eval_ones_comp. psgo. Qed.
Hint Resolve psteps_eval_ones_comp : ps.
Lemma psteps_eval_binop o x y : psteps (eval_binop E k o x y).
Proof. unfold eval_binop. psgo. Qed.
Hint Resolve psteps_eval_binop : ps.
Lemma psteps_eval_comma x y : psteps (eval_comma k x y).
Proof. unfold eval_comma. psgo. Qed.
Hint Resolve psteps_eval_comma : ps.
Lemma psteps_eval_cmp o x y : psteps (eval_cmp E k o x y).
Proof. unfold eval_cmp. psgo. Qed.
Hint Resolve psteps_eval_cmp : ps.
Lemma psteps_eval_break : psteps eval_break.
Proof.
  intros s s' H. unfold eval_break, bind in H. destruct (stack s) eqn:Es.
  - unfold upd_top in H. rewrite Es in H. discriminate.
  - rewrite upd_top_with in H by congruence. cbn in H. inversion H; subst.
    apply steps_one, st_break.
Qed.
Hint Resolve psteps_eval_break : ps.
Lemma psteps_eval_logic_or x y : psteps (eval_logic_or E k x y).
Proof. unfold eval_logic_or. psgo. Qed.
Hint Resolve psteps_eval_logic_or : ps.
Lemma psteps_eval_logic_and x y : psteps (eval_logic_and E k x y).
Proof. unfold eval_logic_and. psgo. Qed.
Hint Resolve psteps_eval_logic_and : ps.
Lemma psteps_eval_cast x y : psteps (eval_cast E k x y).
Proof. unfold eval_cast. psgo. Qed.
Hint Resolve psteps_eval_cast : ps.
Lemma psteps_eval_loop_for i c a b : psteps (eval_loop_for E k i c a b).
Proof. unfold eval_loop_for. psgo. Qed.
Hint Resolve psteps_eval_loop_for : ps.
Lemma psteps_eval_loop_while c b : psteps (eval_loop_while E k c b).
Proof. unfold eval_loop_while. psgo. Qed.
Hint Resolve psteps_eval_loop_while : ps.
Lemma psteps_eval_infix c a b : psteps (eval_infix E k c a b).
Proof. unfold eval_infix. psgo. Qed.
Hint Resolve psteps_eval_infix : ps.
Lemma psteps_eval_if c a b : psteps (eval_if E k c a b).
Proof. unfold eval_if. psgo. Qed.
Hint Resolve psteps_eval_if : ps.
Lemma psteps_eval_return l e : psteps (eval_return k l e).
Proof. unfold eval_return. psgo. Qed.
Hint Resolve psteps_eval_return : ps.
Lemma psteps_expand_decl_chain d : psteps (expand_decl_chain E d).
Proof. unfold expand_decl_chain. psgo. Qed.
Hint Resolve psteps_expand_decl_chain : ps.
Lemma psteps_alignment : forall t, psteps (get_alignment_for_type E k t).
Proof.
  fix IH 1. intros t. destruct t; cbn [get_alignment_for_type]; psgo.
Qed.
Hint Resolve psteps_alignment : ps.
Lemma psteps_set_comp l c : psteps (set_comp l c).
Proof. unfold set_comp. psgo. Qed.
Hint Resolve psteps_set_comp : ps.
Lemma psteps_upd_comp l f : psteps (upd_comp l f).
Proof. unfold upd_comp. psgo. Qed.
Hint Resolve psteps_upd_comp : ps.
Lemma psteps_layout_member l kd acc m : psteps (layout_member E k l kd acc m).
Proof. unfold layout_member. psgo. Qed.
Hint Resolve psteps_layout_member : ps.
Lemma psteps_eval_decl_compound t : psteps (eval_decl_compound E k t).
Proof. unfold eval_decl_compound. psgo. Qed.
Hint Resolve psteps_eval_decl_compound : ps.
Lemma psteps_enum_member v e : psteps (enum_member E k v e).
Proof. unfold enum_member. psgo. Qed.
Hint Resolve psteps_enum_member : ps.
Lemma psteps_eval_enumerator n es : psteps (eval_enumerator E k n es).
Proof. unfold eval_enumerator. psgo. Qed.
Hint Resolve psteps_eval_enumerator : ps.
Lemma psteps_eval_comp_access o m : psteps (eval_comp_access k o m).
Proof. unfold eval_comp_access. psgo. Qed.
Hint Resolve psteps_eval_comp_access : ps.
Lemma psteps_eval_repl : psteps (eval_repl E k).
Proof. unfold eval_repl. psgo. Qed.
Hint Resolve psteps_eval_repl : ps.
Lemma psteps_eval_array_access o i : psteps (eval_array_access E k o i).
Proof. unfold eval_array_access. psgo. Qed.
Hint Resolve psteps_eval_array_access : ps.
Lemma psteps_eval_sizeof e : psteps (eval_sizeof E k e).
Proof. unfold eval_sizeof. psgo. Qed.
Hint Resolve psteps_eval_sizeof : ps.
Lemma psteps_eval_type_specifier sp d : psteps (eval_type_specifier E k sp d).
Proof. unfold eval_type_specifier. psgo. Qed.
Hint Resolve psteps_eval_type_specifier : ps.
Lemma psteps_closure_type d : psteps (closure_type E d).
Proof. unfold closure_type. psgo. Qed.
Hint Resolve psteps_closure_type : ps.
Lemma psteps_get_entry_point f : psteps (get_entry_point_for_fn E f).
Proof. unfold get_entry_point_for_fn. psgo. Qed.
Hint Resolve psteps_get_entry_point : ps.
Lemma psteps_handle_addr_fn_def f : psteps (handle_addr_fn_def E f).
Proof. unfold handle_addr_fn_def. psgo. Qed.
Hint Resolve psteps_handle_addr_fn_def : ps.
Lemma psteps_eval_expr_list c : psteps (eval_expr_list k c).
Proof. unfold eval_expr_list. psgo. Qed.
Hint Resolve psteps_eval_expr_list : ps.
Lemma psteps_eval_addr e : psteps (eval_addr E k e).
Proof. unfold eval_addr. psgo. Qed.
Hint Resolve psteps_eval_addr : ps.
Lemma psteps_eval_deref e : psteps (eval_deref E k e).
Proof. unfold eval_deref. psgo. Qed.
Hint Resolve psteps_eval_deref : ps.
Lemma psteps_eval_cpp_include x : psteps (eval_cpp_include E k x).
Proof.
  unfold eval_cpp_include.
  apply psteps_bind; [psgo|]. intros _. apply psteps_bind; [psgo|]. intros _.
  apply psteps_bind; [psgo|]. intros s0. destruct (e_include E (includes s0)); [|psgo].
  apply psteps_bind; [psgo|]. intros _. apply psteps_bind; [psgo|]. intros _.
  apply psteps_bind; [psgo|]. intros _.
  intros s s' H. unfold bind at 1 in H. unfold top in H.
  destruct (stack s) as [|c cs] eqn:Es; [discriminate|].
  unfold bind at 1, modify in H.
  eapply steps_trans; [apply steps_one, (st_incl_top s c cs Es)|].
  eapply ps_use; [|exact H]. psgo.
Qed.
Hint Resolve psteps_eval_cpp_include : ps.

Lemma psteps_evaluate_1 t : psteps (evaluate_1 E k t).
Proof.
  destruct t; cbn [evaluate_1]; psgo.
  - intros s s' H. destruct (zfind l (statics s)) as [[m al]|];
      (eapply ps_use; [|exact H]); [apply psteps_eval_evaluator_ctx | apply psteps_eval_decl].
  - intros s s' H. destruct (is_T_DECL_COMPOUND s (E_INCOMP_TYPE l));
      [eapply ps_use; [|exact H]; apply psteps_eval_decl_compound|]. inversion H; subst. apply steps_refl.
Qed.
End Knot.

(** All functions at every recursion depth. *)
Lemma K_steps n :
  (forall t, psteps (k_ev (K E n) t)) /\
  (forall d t, psteps (k_hd (K E n) d t)) /\
  (forall d b, psteps (k_inst (K E n) d b)) /\
  (forall a l i, psteps (k_ext (K E n) a l i)).
Proof.
  induction n as [|n (IH1 & IH2 & IH3 & IH4)]; cbn [K k_ev k_hd k_inst k_ext].
  - repeat split; intros; apply psteps_fuel.
  - repeat split; intros; [apply psteps_evaluate_1 | apply psteps_handle_declarator
      | apply psteps_instantiate_struct | apply psteps_ext_step]; auto.
Qed.

Lemma ev_steps n t s s' : final (k_ev (K E n) t s) = Some s' -> steps s s'.
Proof. apply K_steps. Qed.

Lemma stmts_steps n t s s' : final (evaluate_stmts E (K E n) t s) = Some s' -> steps s s'.
Proof.
  destruct (K_steps n) as (H1 & H2 & H3 & H4). apply psteps_evaluate_stmts; auto.
Qed.

(** Invariants. *)
Lemma steps_invariant (I : state -> Prop) :
  (forall s s', I s -> step s s' -> I s') -> forall s s', steps s s' -> I s -> I s'.
Proof. intros H s s' Hs. induction Hs; eauto. Qed.

End Steps.
