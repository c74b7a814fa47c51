(** Every evaluation without break restores the scopes (C14). *)
From Coq Require Import ZArith List String Bool Lia.
From Verif Require Import CInt Tree SpecResolver State Eval SpecScope.
Import ListNotations.
Local Open Scope Z_scope.
Local Open Scope m_scope.

Lemma grows_refl c : grows c c.
Proof. repeat split; exists []; symmetry; apply app_nil_r. Qed.

Lemma grows_trans a b c : grows a b -> grows b c -> grows a c.
Proof.
  intros (A1 & A2 & A3 & A4 & A5 & [m1 A6] & [m2 A7] & [m3 A8] & [m4 A9])
         (B1 & B2 & B3 & B4 & B5 & [n1 B6] & [n2 B7] & [n3 B8] & [n4 B9]).
  repeat split; try congruence.
  - exists (m1 ++ n1). rewrite app_assoc, <- A6. exact B6.
  - exists (m2 ++ n2). rewrite app_assoc, <- A7. exact B7.
  - exists (m3 ++ n3). rewrite app_assoc, <- A8. exact B8.
  - exists (m4 ++ n4). rewrite app_assoc, <- A9. exact B9.
Qed.

Lemma restored_refl l : restored l l.
Proof. destruct l; cbn; auto using grows_refl. Qed.

Lemma restored_trans a b c : restored a b -> restored b c -> restored a c.
Proof.
  destruct a, b, c; cbn; try tauto.
  intros [-> H1] [-> H2]. split; eauto using grows_trans.
Qed.

Lemma restored_fn l l' : restored l l' -> find_fn_ctx l' = find_fn_ctx l.
Proof.
  destruct l as [|c cs], l' as [|c' cs']; cbn; try tauto.
  intros [-> (H1 & _ & _ & _ & H5 & _)]. rewrite H5, H1. reflexivity.
Qed.

Definition ids_lt (s : state) : Prop := Forall (fun c => c_id c < fresh s) (stack s).

(** The scopes [l'] when a longjmp to [i] is in flight. *)
Definition jshape (b : Z) (l : list ctx) (i : Z) (l' : list ctx) : Prop :=
  exists pre st v, l' = pre ++ set_retval v st /\ restored l st /\
                   Forall (fun c => b <= c_id c) pre /\ find_fn_ctx l = Some i.

Definition moved (s s' : state) : Prop := fresh s <= fresh s' /\ breaks s <= breaks s' /\ ids_lt s'.

Definition monoM {A} (m : M A) : Prop := forall s, ids_lt s ->
  match m s with Ok _ s' => moved s s' | Jmp _ s' => moved s s' | _ => True end.

Definition scoped {A} (m : M A) : Prop := forall s, ids_lt s ->
  match m s with
  | Ok _ s' => breaks s' = breaks s -> restored (stack s) (stack s')
  | Jmp i s' => breaks s' = breaks s -> fresh s <= i \/ jshape (fresh s) (stack s) i (stack s')
  | _ => True
  end.

Definition good {A} (m : M A) : Prop := monoM m /\ scoped m.

(** The same for the rest of a block whose context [c] is still on the stack. *)
Definition scopedp {A} (m : M A) : Prop := forall s c cs b, ids_lt s -> stack s = c :: cs ->
  c_isfn c = false -> c_break c = false -> b <= c_id c ->
  match m s with
  | Ok _ s' => breaks s' = breaks s -> restored cs (stack s')
  | Jmp i s' => breaks s' = breaks s -> b <= i \/ jshape b cs i (stack s')
  | _ => True
  end.

Definition goodp {A} (m : M A) : Prop := monoM m /\ scopedp m.

Lemma moved_trans a b c : moved a b -> moved b c -> moved a c.
Proof. unfold moved. intros (?&?&?) (?&?&?). repeat split; auto; lia. Qed.

Lemma monoM_bind A B (m : M A) (f : A -> M B) :
  monoM m -> (forall a, monoM (f a)) -> monoM (bind m f).
Proof.
  intros Hm Hf s Hs. unfold bind. specialize (Hm s Hs).
  destruct (m s) as [a s1| | | | | | | |]; auto.
  specialize (Hf a s1 (proj2 (proj2 Hm))). destruct (f a s1); auto; eapply moved_trans; eauto.
Qed.

Lemma jshape_weaken b b' l l1 i l' : restored l l1 -> b' <= b -> jshape b l1 i l' -> jshape b' l i l'.
Proof.
  intros Hr Hb (pre & st & v & -> & H1 & H2 & H3). exists pre, st, v.
  split; [reflexivity|]. split; [eapply restored_trans; eauto|]. split.
  - eapply Forall_impl; [|exact H2]. cbn. intros; lia.
  - rewrite <- (restored_fn _ _ Hr). exact H3.
Qed.

Lemma good_bind A B (m : M A) (f : A -> M B) :
  good m -> (forall a, good (f a)) -> good (bind m f).
Proof.
  intros [Hm1 Hm2] Hf. split; [apply monoM_bind; auto; intros; apply Hf|].
  intros s Hs. unfold bind. specialize (Hm1 s Hs). specialize (Hm2 s Hs).
  destruct (m s) as [a s1| | | | | | | |]; auto.
  destruct (Hf a) as [Hf1 Hf2]. destruct Hm1 as (M1 & M2 & M3).
  specialize (Hf1 s1 M3). specialize (Hf2 s1 M3).
  destruct (f a s1) as [x s2|i s2| | | | | | |]; auto; intros Hb; destruct Hf1 as (N1 & N2 & N3).
  - eapply restored_trans; [apply Hm2; lia | apply Hf2; lia].
  - destruct Hf2 as [Hi|Hj]; [lia| left; lia | right].
    eapply jshape_weaken; [apply Hm2; lia | exact M1 | exact Hj].
Qed.

Lemma goodp_bind A B (m : M A) (f : A -> M B) :
  good m -> (forall a, goodp (f a)) -> goodp (bind m f).
Proof.
  intros [Hm1 Hm2] Hf. split; [apply monoM_bind; auto; intros; apply Hf|].
  intros s c cs b Hs Hst Hfn Hbr Hid. unfold bind. specialize (Hm1 s Hs). specialize (Hm2 s Hs).
  assert (Hbf : b <= fresh s).
  { unfold ids_lt in Hs. rewrite Hst in Hs. inversion Hs; subst. lia. }
  destruct (m s) as [a s1|i s1| | | | | | |]; auto.
  - destruct (Hf a) as [Hf1 Hf2]. destruct Hm1 as (M1 & M2 & M3).
    specialize (Hf1 s1 M3).
    destruct (Z.eq_dec (breaks s1) (breaks s)) as [He|Hne].
    + specialize (Hm2 He). rewrite Hst in Hm2. destruct (stack s1) as [|c1 cs1] eqn:E1; [destruct Hm2|].
      destruct Hm2 as [-> Hg]. destruct Hg as (G1 & _ & _ & G4 & G5 & _).
      assert (b <= c_id c1) by congruence.
      specialize (Hf2 s1 c1 cs b M3 E1). rewrite G5, G4 in Hf2. specialize (Hf2 Hfn Hbr H).
      destruct (f a s1); auto; intros Hb; apply Hf2; congruence.
    + destruct (f a s1); auto; intros Hb; destruct Hf1 as (N1 & N2 & N3); lia.
  - intros Hb. destruct (Hm2 Hb) as [Hi|Hj]; [left; lia|right].
    destruct Hj as (pre & st & v & E1 & R & F & Fn). rewrite Hst in R, Fn.
    destruct st as [|c1 cs1]; [destruct R|]. destruct R as [-> G].
    destruct G as (G1 & _ & _ & _ & G5 & _).
    exists (pre ++ [c1]), cs, v. cbn in E1, Fn. rewrite G5, Hfn in E1. rewrite Hfn in Fn.
    split; [rewrite <- app_assoc; exact E1|]. split; [apply restored_refl|]. split; auto.
    apply Forall_app. split; [eapply Forall_impl; [|exact F]; cbn; lia|].
    constructor; auto. congruence.
Qed.

Lemma monoM_pop : monoM pop_ctx.
Proof.
  intros s Hs. unfold pop_ctx. unfold ids_lt in Hs.
  destruct (stack s) as [|c [|c' cs]] eqn:E1; auto.
  repeat split; cbn; try lia. unfold ids_lt. cbn. inversion Hs; auto.
Qed.

Lemma goodp_pop A (m : M A) : good m -> goodp (bind pop_ctx (fun _ => m)).
Proof.
  intros [H1 H2]. split; [apply monoM_bind; auto; apply monoM_pop|].
  intros s c cs b Hs Hst Hfn Hbr Hid. unfold bind, pop_ctx. rewrite Hst.
  destruct cs as [|c' cs]; auto.
  set (s1 := set_stack (fun _ => c' :: cs) s).
  assert (Hs1 : ids_lt s1).
  { unfold ids_lt in *. rewrite Hst in Hs. inversion Hs; auto. }
  specialize (H2 s1 Hs1). destruct (m s1) as [a s2|i s2| | | | | | |]; auto.
  - intros Hb. assert (Hbf : b <= fresh s).
    { unfold ids_lt in Hs. rewrite Hst in Hs. inversion Hs; subst. lia. }
    destruct (H2 Hb) as [Hi|Hj]; [left; cbn in Hi; lia|right].
    eapply jshape_weaken; [apply restored_refl| |exact Hj]. cbn. lia.
Qed.

Lemma monoM_push E name : monoM (push_ctx E name).
Proof.
  intros s Hs. cbn. repeat split; cbn; try lia.
  unfold ids_lt. cbn. constructor; [cbn; lia|].
  eapply Forall_impl; [|exact Hs]. cbn. lia.
Qed.

Lemma good_push E A name (m : M A) : goodp m -> good (bind (push_ctx E name) (fun _ => m)).
Proof.
  intros [H1 H2]. split; [apply monoM_bind; auto; apply monoM_push|].
  intros s Hs. pose proof (monoM_push E name s Hs) as Hp.
  unfold bind at 1. destruct (push_ctx E name s) as [u s1| | | | | | | |] eqn:Ep; auto;
    [|cbn in Ep; discriminate].
  cbn in Ep. inversion Ep; subst; clear Ep. destruct Hp as (P1 & P2 & P3).
  specialize (H2 _ _ _ (fresh s) P3 eq_refl eq_refl eq_refl (Z.le_refl _)).
  cbn in H2. exact H2.
Qed.

Lemma goodp_brk A (m1 m2 : M A) : monoM m1 -> goodp m2 ->
  goodp (bind top (fun cx => if c_break cx then m1 else m2)).
Proof.
  intros H1 [H2 H3]. split.
  - intros s Hs. unfold bind, top. destruct (stack s) eqn:E1; auto.
    destruct (c_break c); [apply H1, Hs | apply H2, Hs].
  - intros s c cs b Hs Hst Hfn Hbr Hid. unfold bind, top. rewrite Hst, Hbr. eapply H3; eauto.
Qed.

(** ** Leaves *)

Lemma good_same A (m : M A) :
  (forall s, match m s with
             | Ok _ s' => stack s' = stack s /\ fresh s <= fresh s' /\ breaks s' = breaks s
             | Jmp _ _ => False
             | _ => True
             end) -> good m.
Proof.
  intros H. split; intros s Hs; specialize (H s); destruct (m s); auto; try contradiction;
    destruct H as (H1 & H2 & H3).
  - repeat split; try lia. unfold ids_lt in *. rewrite H1. eapply Forall_impl; [|exact Hs]. cbn; lia.
  - intros _. rewrite H1. apply restored_refl.
Qed.

Ltac same := apply good_same; intros; cbn; auto; repeat split; lia.

Lemma good_ret A (a : A) : good (ret a). Proof. same. Qed.
Lemma good_die A : good (@die A). Proof. same. Qed.
Lemma good_abort A : good (@abort A). Proof. same. Qed.
Lemma good_exit A n : good (@exit_ A n). Proof. same. Qed.
Lemma good_ub A : good (@ub A). Proof. same. Qed.
Lemma good_fuel A : good (@out_of_fuel A). Proof. same. Qed.
Lemma good_unmodelled A : good (@unmodelled A). Proof. same. Qed.
Lemma good_get : good get. Proof. same. Qed.
Lemma good_gets A (f : state -> A) : good (gets f). Proof. same. Qed.
Lemma good_top : good top.
Proof. apply good_same. intros. unfold top. destruct (stack s) eqn:E1; auto. rewrite E1. repeat split; lia. Qed.
Lemma good_load a n : good (load a n).
Proof. apply good_same. intros. unfold load. destruct (valid s a n); auto. repeat split; lia. Qed.
Lemma good_store a b : good (store a b).
Proof. apply good_same. intros. unfold store. destruct (valid _ _ _); auto. cbn. repeat split; lia. Qed.
Lemma good_tick E : good (tick E). Proof. same. Qed.
Lemma good_malloc E n : good (malloc E n).
Proof. apply good_same. intros. unfold malloc. destruct (_ && _); auto. cbn. repeat split; lia. Qed.
Lemma good_fresh_id : good fresh_id. Proof. same. Qed.

Lemma good_modify f :
  (forall s, stack (f s) = stack s /\ fresh s <= fresh (f s) /\ breaks (f s) = breaks s) -> good (modify f).
Proof. intros H. apply good_same. intros. apply H. Qed.

Lemma good_upd_top f : (forall c, grows c (f c)) -> good (upd_top f).
Proof.
  intros H. split; intros s Hs; unfold upd_top; destruct (stack s) as [|c cs] eqn:E1; auto.
  - repeat split; cbn; try lia. unfold ids_lt in *. rewrite E1 in Hs. cbn.
    inversion Hs; subst. constructor; auto. destruct (H c) as (-> & _). exact H2.
  - intros _. cbn. auto.
Qed.

Lemma grows_idmap e c : grows c (c_set_idmap (fun m => m ++ e) c).
Proof. repeat split; cbn; try (exists []; symmetry; apply app_nil_r). exists e. reflexivity. Qed.
Lemma grows_structs e c : grows c (c_set_structs (fun m => m ++ e) c).
Proof. repeat split; cbn; try (exists []; symmetry; apply app_nil_r). exists e. reflexivity. Qed.
Lemma grows_unions e c : grows c (c_set_unions (fun m => m ++ e) c).
Proof. repeat split; cbn; try (exists []; symmetry; apply app_nil_r). exists e. reflexivity. Qed.
Lemma grows_allocs e c : grows c (c_set_allocs (fun m => m ++ e) c).
Proof. repeat split; cbn; try (exists []; symmetry; apply app_nil_r). exists e. reflexivity. Qed.

Lemma good_iterM A (f : A -> M unit) l : (forall x, good (f x)) -> good (iterM f l).
Proof. intros Hf. induction l; cbn [iterM]; [apply good_ret|]. apply good_bind; auto. Qed.
Lemma good_foldM A B (f : B -> A -> M B) l : (forall b x, good (f b x)) ->
  forall acc, good (foldM f acc l).
Proof. intros Hf. induction l; cbn [foldM]; intros; [apply good_ret|]. apply good_bind; auto. Qed.
Lemma good_mapM A B (f : A -> M B) l : (forall x, good (f x)) -> good (mapM f l).
Proof.
  intros Hf. induction l; cbn [mapM]; [apply good_ret|].
  apply good_bind; auto. intros. apply good_bind; auto. intros. apply good_ret.
Qed.
Lemma good_each_decl f d : (forall x, good (f x)) -> good (each_decl f d).
Proof. intros. unfold each_decl. destruct d; auto. apply good_foldM. auto. Qed.

Create HintDb gd discriminated.
#[local] Hint Constants Opaque : gd.
#[local] Hint Resolve good_ret good_die good_abort good_exit good_ub good_fuel good_unmodelled
  good_get good_gets good_top good_load good_store good_tick good_malloc good_fresh_id
  grows_idmap grows_structs grows_unions grows_allocs : gd.

Ltac ggo :=
  repeat first
    [ progress intros
    | match goal with
      | |- good (bind (push_ctx _ _) _) => apply good_push
      | |- goodp (bind pop_ctx _) => apply goodp_pop
      | |- goodp (bind _ _) => apply goodp_bind
      | |- good (bind _ _) => apply good_bind
      | |- good (iterM _ _) => apply good_iterM
      | |- good (foldM _ _ _) => apply good_foldM
      | |- good (mapM _ _) => apply good_mapM
      | |- good (each_decl _ _) => apply good_each_decl
      | |- good (match ?x with _ => _ end) => destruct x
      | |- good (let '(_, _) := ?x in _) => destruct x
      | |- good (modify _) => apply good_modify; intros; cbn; repeat split; auto; lia
      | |- good (upd_top _) => apply good_upd_top
      end
    | solve [auto 2 with gd nocore]
    | progress (cbn beta iota zeta) ].

Section Env.
Variable E : env.

Lemma good_track_alloc a : good (track_alloc E a).
Proof. unfold track_alloc. ggo. Qed.
#[local] Hint Resolve good_track_alloc : gd.
Lemma good_make_live_var_addr : good (make_live_var_addr E).
Proof. unfold make_live_var_addr. ggo. Qed.
#[local] Hint Resolve good_make_live_var_addr : gd.
Lemma good_resolve_identifier_global id : good (resolve_identifier_global id).
Proof. unfold resolve_identifier_global. ggo. Qed.
#[local] Hint Resolve good_resolve_identifier_global : gd.
Lemma good_resolve_identifier_current id : good (resolve_identifier_current id).
Proof. unfold resolve_identifier_current. ggo. Qed.
#[local] Hint Resolve good_resolve_identifier_current : gd.
Lemma good_resolve_compound c g : good (resolve_compound c g).
Proof. unfold resolve_compound. ggo. Qed.
#[local] Hint Resolve good_resolve_compound : gd.
Lemma good_map_identifier id t : good (map_identifier E id t).
Proof. unfold map_identifier, map_identifer_cur. ggo. Qed.
#[local] Hint Resolve good_map_identifier : gd.
Lemma good_map_compound c t : good (map_compound E c t).
Proof. unfold map_compound. ggo. Qed.
#[local] Hint Resolve good_map_compound : gd.
Lemma good_eval_identifier t : good (eval_identifier t).
Proof. unfold eval_identifier. ggo. Qed.
#[local] Hint Resolve good_eval_identifier : gd.
Lemma good_make_int type a : good (make_int_from_live_var E type a).
Proof. unfold make_int_from_live_var. ggo. Qed.
#[local] Hint Resolve good_make_int : gd.
Lemma good_lv_to_int t : good (lv_to_int E t).
Proof. unfold lv_to_int. ggo. Qed.
#[local] Hint Resolve good_lv_to_int : gd.

Section Knot.
Variable k : knot.
Hypothesis Hev : forall t, good (k_ev k t).
Hypothesis Hhd : forall d t, good (k_hd k d t).
Hypothesis Hinst : forall d b, good (k_inst k d b).
Hypothesis Hext : forall a l i, good (k_ext k a l i).
#[local] Hint Resolve Hev Hhd Hinst Hext : gd.

Lemma good_get_size_of_type type : good (get_size_of_type E k type).
Proof. unfold get_size_of_type. ggo. Qed.
#[local] Hint Resolve good_get_size_of_type : gd.
Lemma good_convert t : good (convert_to_comparable_type E k t).
Proof. unfold convert_to_comparable_type. ggo. Qed.
#[local] Hint Resolve good_convert : gd.
Lemma good_comparable t : good (comparable E k t).
Proof. unfold comparable. ggo. Qed.
#[local] Hint Resolve good_comparable : gd.
Lemma good_eval_fn_args t : good (eval_fn_args E k t).
Proof. unfold eval_fn_args. ggo. Qed.
#[local] Hint Resolve good_eval_fn_args : gd.
Lemma good_cscript_exit A t : good (@cscript_exit E k A t).
Proof. unfold cscript_exit, get_c_main_return_value. ggo. Qed.
#[local] Hint Resolve good_cscript_exit : gd.

Lemma retval_lt v n cs : Forall (fun c => c_id c < n) cs -> Forall (fun c => c_id c < n) (set_retval v cs).
Proof.
  induction 1; cbn; auto. destruct (c_isfn x); constructor; auto.
Qed.

Lemma good_do_return v : good (do_return E k v).
Proof.
  split; intros s Hs; unfold do_return, bind at 1; cbn [get];
    destruct (find_fn_ctx (stack s)) as [i|] eqn:Ef; try apply good_cscript_exit; auto.
  - cbn. repeat split; cbn; try lia. unfold ids_lt. cbn. apply retval_lt, Hs.
  - cbn. intros _. right. exists [], (stack s), v. repeat split; auto. apply restored_refl.
Qed.
#[local] Hint Resolve good_do_return : gd.
Lemma good_evaluate_chain l : good (evaluate_chain E k l).
Proof. induction l; cbn [evaluate_chain]; ggo. Qed.
#[local] Hint Resolve good_evaluate_chain : gd.
Lemma good_evaluate_stmts t : good (evaluate_stmts E k t).
Proof. unfold evaluate_stmts. ggo. Qed.
#[local] Hint Resolve good_evaluate_stmts : gd.
Lemma good_get_ffi_type t : good (get_ffi_type t).
Proof. unfold get_ffi_type. ggo. Qed.
#[local] Hint Resolve good_get_ffi_type : gd.
Lemma good_push_arg n c b p : good (push_arg E n c b p).
Proof. unfold push_arg. ggo. Qed.
#[local] Hint Resolve good_push_arg : gd.
Lemma good_load_scalar c a : good (load_scalar c a).
Proof. unfold load_scalar. ggo. Qed.
#[local] Hint Resolve good_load_scalar : gd.
Lemma good_marshal_arg p n v : good (marshal_arg E p n v).
Proof. unfold marshal_arg. ggo. Qed.
#[local] Hint Resolve good_marshal_arg : gd.
Lemma good_marshal_args p l : forall n, good (marshal_args E p n l).
Proof. induction l; cbn [marshal_args]; ggo. Qed.
#[local] Hint Resolve good_marshal_args : gd.
Lemma good_closure_args types : forall args, good (closure_args E types args).
Proof. induction types; cbn [closure_args]; ggo. Qed.
#[local] Hint Resolve good_closure_args : gd.
Lemma good_closure_entry c args : good (closure_entry E k c args).
Proof. unfold closure_entry. ggo. Qed.
#[local] Hint Resolve good_closure_entry : gd.
Lemma good_ext_step addr args i : good (ext_step E k addr args i).
Proof. unfold ext_step. ggo. Qed.
#[local] Hint Resolve good_ext_step : gd.
Lemma good_do_ext_call addr args r p : good (do_ext_call E k addr args r p).
Proof. unfold do_ext_call. ggo. Qed.
#[local] Hint Resolve good_do_ext_call : gd.
Lemma good_make_ret_lv t : good (make_ret_lv E t).
Proof. unfold make_ret_lv. ggo. Qed.
#[local] Hint Resolve good_make_ret_lv : gd.
Lemma good_bind_param d v : good (bind_param E k d v).
Proof. unfold bind_param. ggo. Qed.
#[local] Hint Resolve good_bind_param : gd.
Lemma good_bind_params d : forall v, good (bind_params E k d v).
Proof. induction d; intros [|]; cbn [bind_params]; ggo. Qed.
#[local] Hint Resolve good_bind_params : gd.

Lemma drop_until_lt i n : forall cs cs', drop_until i cs = Some cs' ->
  Forall (fun c => c_id c < n) cs -> Forall (fun c => c_id c < n) cs'.
Proof.
  induction cs as [|c cs IH]; cbn; [discriminate|]. intros cs' H Hf.
  destruct (_ =? _); [inversion H; subst; auto|]. inversion Hf; auto.
Qed.

Lemma monoM_pop_until i : monoM (pop_until i).
Proof.
  intros s Hs. unfold pop_until. destruct (drop_until i (stack s)) eqn:Ed; auto.
  repeat split; cbn; try lia. unfold ids_lt. cbn. eapply drop_until_lt; eauto.
Qed.

Lemma monoM_catch A B j (m : M A) (f : A -> M B) (h : M B) :
  monoM m -> (forall a, monoM (f a)) -> monoM h -> monoM (catch j m f h).
Proof.
  intros Hm Hf Hh s Hs. unfold catch. specialize (Hm s Hs).
  destruct (m s) as [a s1|i s1| | | | | | |]; auto.
  - specialize (Hf a s1 (proj2 (proj2 Hm))). destruct (f a s1); auto; eapply moved_trans; eauto.
  - destruct (i =? j); auto.
    specialize (Hh s1 (proj2 (proj2 Hm))). destruct (h s1); auto; eapply moved_trans; eauto.
Qed.

Lemma monoM_isfn : monoM (upd_top (c_set_isfn true)).
Proof.
  intros s Hs. unfold upd_top. unfold ids_lt in Hs. destruct (stack s) eqn:E1; auto.
  repeat split; cbn; try lia. unfold ids_lt. cbn. inversion Hs; subst. constructor; auto.
Qed.

Lemma drop_until_app i pre c cs : Forall (fun d => i < c_id d) pre -> c_id c = i ->
  drop_until i (pre ++ c :: cs) = Some (c :: cs).
Proof.
  intros H Hc. induction H as [|d pre Hd _ IH]; cbn.
  - rewrite (proj2 (Z.eqb_eq _ _) Hc). reflexivity.
  - destruct (Z.eqb_spec (c_id d) i); [lia|exact IH].
Qed.

(** The rest of a call once its context [c] is on the stack. *)
Definition call_rest (bindp : M unit) (stmts : tree) : M tree :=
  fn_ctx <- top ;;
  bindp ;;
  jmp_ctx <- top ;;
  catch (c_id jmp_ctx) (evaluate_stmts E k stmts)
    (fun _ => pop_ctx ;; ret NULL)
    (pop_until (c_id fn_ctx) ;; c <- top ;; pop_ctx ;; ret (c_retval c)).

Lemma call_rest_mono bindp stmts : good bindp -> monoM (call_rest bindp stmts).
Proof.
  intros [Hb _]. unfold call_rest.
  apply monoM_bind; [apply good_top|]. intros c1.
  apply monoM_bind; [exact Hb|]. intros _.
  apply monoM_bind; [apply good_top|]. intros c2.
  apply monoM_catch; [apply good_evaluate_stmts| |].
  - intros _. apply monoM_bind; [apply monoM_pop|]. intros; apply good_ret.
  - apply monoM_bind; [apply monoM_pop_until|]. intros _.
    apply monoM_bind; [apply good_top|]. intros c3.
    apply monoM_bind; [apply monoM_pop|]. intros; apply good_ret.
Qed.

Lemma call_rest_scoped bindp stmts s c cs : good bindp ->
  ids_lt s -> stack s = c :: cs -> c_isfn c = true -> c_break c = false ->
  match call_rest bindp stmts s with
  | Ok _ s' => breaks s' = breaks s -> stack s' = cs
  | Jmp i s' => breaks s' = breaks s -> c_id c <= i
  | _ => True
  end.
Proof.
  intros [Hb1 Hb2] Hs Hst Hfn Hbr.
  assert (Hcid : c_id c < fresh s).
  { unfold ids_lt in Hs. rewrite Hst in Hs. inversion Hs; auto. }
  pose proof (call_rest_mono bindp stmts (conj Hb1 Hb2) s Hs) as Hmono.
  unfold call_rest in *. unfold bind at 1, top at 1. unfold bind at 1, top at 1 in Hmono.
  rewrite Hst in *. unfold bind at 1. unfold bind at 1 in Hmono.
  specialize (Hb1 s Hs). specialize (Hb2 s Hs).
  destruct (bindp s) as [u s1|i s1| | | | | | |]; auto.
  2:{ intros He. destruct (Hb2 He) as [Hi|Hj]; [lia|].
      destruct Hj as (pre & st & v & _ & _ & _ & Hf). rewrite Hst in Hf. cbn in Hf.
      rewrite Hfn in Hf. inversion Hf. lia. }
  destruct Hb1 as (M1 & M2 & M3).
  destruct (Z.eq_dec (breaks s1) (breaks s)) as [He|Hne].
  2:{ destruct (bind _ _ s1) eqn:Er; auto; intros Hbb.
      - unfold bind at 1, top at 1 in Er. destruct (stack s1) as [|d ds]; [discriminate|].
        assert (Hm : monoM (catch (c_id d) (evaluate_stmts E k stmts)
             (fun _ => pop_ctx ;; ret NULL)
             (pop_until (c_id c) ;; c <- top ;; pop_ctx ;; ret (c_retval c)))).
        { apply monoM_catch; [apply good_evaluate_stmts| |].
          - intros _. apply monoM_bind; [apply monoM_pop|]. intros; apply good_ret.
          - apply monoM_bind; [apply monoM_pop_until|]. intros _.
            apply monoM_bind; [apply good_top|]. intros c3.
            apply monoM_bind; [apply monoM_pop|]. intros; apply good_ret. }
        specialize (Hm s1 M3). rewrite Er in Hm. destruct Hm as (_ & Hm & _). lia.
      - unfold bind at 1, top at 1 in Er. destruct (stack s1) as [|d ds]; [discriminate|].
        assert (Hm : monoM (catch (c_id d) (evaluate_stmts E k stmts)
             (fun _ => pop_ctx ;; ret NULL)
             (pop_until (c_id c) ;; c <- top ;; pop_ctx ;; ret (c_retval c)))).
        { apply monoM_catch; [apply good_evaluate_stmts| |].
          - intros _. apply monoM_bind; [apply monoM_pop|]. intros; apply good_ret.
          - apply monoM_bind; [apply monoM_pop_until|]. intros _.
            apply monoM_bind; [apply good_top|]. intros c3.
            apply monoM_bind; [apply monoM_pop|]. intros; apply good_ret. }
        specialize (Hm s1 M3). rewrite Er in Hm. destruct Hm as (_ & Hm & _). lia. }
  specialize (Hb2 He). rewrite Hst in Hb2.
  unfold bind at 1, top at 1. unfold bind at 1, top at 1 in Hmono.
  destruct (stack s1) as [|c1 cs1] eqn:E1; [destruct Hb2|].
  destruct Hb2 as [-> (G1 & _ & _ & G4 & G5 & _)].
  unfold catch in *.
  destruct (good_evaluate_stmts stmts) as [S1 S2]. specialize (S1 s1 M3). specialize (S2 s1 M3).
  destruct (evaluate_stmts E k stmts s1) as [u2 s2|i s2| | | | | | |]; auto.
  - destruct S1 as (N1 & N2 & N3). unfold bind, pop_ctx in *.
    destruct (stack s2) as [|c2 [|c3 cs2]] eqn:E2; auto. cbn in *. intros Hbb.
    assert (Hr : restored (c1 :: cs) (c2 :: c3 :: cs2)) by (rewrite <- E1; apply S2; congruence).
    destruct Hr as [Hr _]. congruence.
  - destruct (Z.eqb_spec i (c_id c1)) as [->|Hne].
    + destruct S1 as (N1 & N2 & N3).
      destruct (Z.eq_dec (breaks s2) (breaks s1)) as [He2|Hne2].
      * destruct (S2 He2) as [Hi|Hj].
        { unfold ids_lt in M3. rewrite E1 in M3. inversion M3; lia. }
        destruct Hj as (pre & st & v & E3 & R & F & _). rewrite E1 in R.
        destruct st as [|c2 cs2]; [destruct R|]. destruct R as [-> (R1 & _ & _ & _ & R5 & _)].
        cbn in E3. rewrite R5, G5, Hfn in E3.
        unfold bind at 1, pop_until. rewrite E3.
        rewrite (drop_until_app (c_id c) pre (c_set_retval v c2) cs).
        2:{ eapply Forall_impl; [|exact F]. cbn. intros d Hd.
            unfold ids_lt in M3. rewrite E1 in M3. inversion M3; lia. }
        2:{ cbn. congruence. }
        unfold bind, top, pop_ctx. cbn. destruct cs; auto. cbn. auto.
      * clear Hmono. unfold bind at 1, pop_until. destruct (drop_until (c_id c) (stack s2)) as [l|]; auto.
        unfold bind, top, pop_ctx. cbn.
        destruct l as [|d [|d' l]]; cbn; auto. intros Hbb. lia.
    + intros Hbb. destruct S1 as (N1 & N2 & N3).
      assert (He2 : breaks s2 = breaks s1) by lia.
      destruct (S2 He2) as [Hi|Hj]; [lia|].
      destruct Hj as (pre & st & v & _ & _ & _ & Hf). rewrite E1 in Hf. cbn in Hf.
      rewrite G5, Hfn in Hf. inversion Hf. congruence.
Qed.

Lemma good_call_defined d a st v : good (call_defined E k d a st v).
Proof.
  unfold call_defined. apply good_bind; [ggo|]. intros name.
  set (bp := match a with NULL => ret tt | _ => _ end).
  assert (Hbp : good bp) by (unfold bp; ggo).
  change (good (bind (push_ctx E name) (fun _ => bind (upd_top (c_set_isfn true))
            (fun _ => call_rest bp st)))).
  split.
  { apply monoM_bind; [apply monoM_push|]. intros _.
    apply monoM_bind; [apply monoM_isfn|]. intros _. apply call_rest_mono, Hbp. }
  intros s Hs. pose proof (monoM_push E name s Hs) as Hp.
  unfold bind at 1. destruct (push_ctx E name s) as [u s1| | | | | | | |] eqn:Ep; auto;
    [|cbn in Ep; discriminate].
  cbn in Ep. inversion Ep; subst; clear Ep. destruct Hp as (P1 & P2 & P3).
  unfold bind at 1, upd_top. cbn [stack set_stack].
  set (s1 := set_stack _ _).
  assert (Hs1 : ids_lt s1).
  { unfold ids_lt in *. cbn in *. inversion P3; subst. constructor; auto. }
  pose proof (call_rest_scoped bp st s1 _ _ Hbp Hs1 eq_refl eq_refl eq_refl) as Hc.
  destruct (call_rest bp st s1); auto; intros Hb.
  rewrite Hc by exact Hb. apply restored_refl.
Qed.
#[local] Hint Resolve good_call_defined : gd.

Lemma good_handle_builtin b a : good (handle_builtin E k b a).
Proof. unfold handle_builtin. ggo. Qed.
#[local] Hint Resolve good_handle_builtin : gd.
Lemma good_eval_fn_call i a : good (eval_fn_call E k i a).
Proof. unfold eval_fn_call. ggo. Qed.
#[local] Hint Resolve good_eval_fn_call : gd.
Lemma good_make_and_map i t : good (make_and_map_live_var E i t).
Proof. unfold make_and_map_live_var. ggo. Qed.
#[local] Hint Resolve good_make_and_map : gd.
Lemma good_get_array_size i t : good (get_array_size E k i t).
Proof. unfold get_array_size. ggo. Qed.
#[local] Hint Resolve good_get_array_size : gd.
Lemma good_instantiate_array i t b l : good (instantiate_array E i t b l).
Proof. unfold instantiate_array. ggo. Qed.
#[local] Hint Resolve good_instantiate_array : gd.
Lemma good_resolve_specs t : good (resolve_specs E t).
Proof. unfold resolve_specs. ggo. Qed.
#[local] Hint Resolve good_resolve_specs : gd.
Lemma good_map_member i t m : good (map_member E i t m).
Proof. unfold map_member. ggo. Qed.
#[local] Hint Resolve good_map_member : gd.
Lemma good_instantiate_struct_element b ms m : good (instantiate_struct_element E k b ms m).
Proof. unfold instantiate_struct_element. ggo. Qed.
#[local] Hint Resolve good_instantiate_struct_element : gd.
Lemma good_instantiate_struct d b : good (instantiate_struct E k d b).
Proof. unfold instantiate_struct. ggo. Qed.
#[local] Hint Resolve good_instantiate_struct : gd.
Lemma good_alloc_struct d : good (alloc_struct E k d).
Proof. unfold alloc_struct. ggo. Qed.
#[local] Hint Resolve good_alloc_struct : gd.
Lemma good_alloc_array i z t : good (alloc_array E k i z t).
Proof. unfold alloc_array. ggo. Qed.
#[local] Hint Resolve good_alloc_array : gd.
Lemma good_declare_array i z t : good (declare_array E k i z t).
Proof. unfold declare_array. ggo. Qed.
#[local] Hint Resolve good_declare_array : gd.
Lemma good_declare_other d t : good (declare_other E k d t).
Proof. unfold declare_other. ggo. Qed.
#[local] Hint Resolve good_declare_other : gd.
Lemma good_handle_declarator d t : good (handle_declarator E k d t).
Proof. unfold handle_declarator. ggo. Qed.
#[local] Hint Resolve good_handle_declarator : gd.
Lemma good_map_typedef i : forall t, good (map_typedef E i t).
Proof. induction i; intros; cbn [map_typedef]; ggo. Qed.
#[local] Hint Resolve good_map_typedef : gd.
Lemma good_handle_extern_fn r i a st : good (handle_extern_fn E r i a st).
Proof. unfold handle_extern_fn. ggo. Qed.
#[local] Hint Resolve good_handle_extern_fn : gd.
Lemma good_resolve_symbol i : good (resolve_symbol E i).
Proof. unfold resolve_symbol. ggo. Qed.
#[local] Hint Resolve good_resolve_symbol : gd.
Lemma good_handle_extern_decl t d : good (handle_extern_decl E k t d).
Proof. unfold handle_extern_decl. ggo. Qed.
#[local] Hint Resolve good_handle_extern_decl : gd.
Lemma good_eval_ext_func f : good (eval_ext_func E k f).
Proof. unfold eval_ext_func. ggo. Qed.
#[local] Hint Resolve good_eval_ext_func : gd.
Lemma good_eval_inspect f : good (eval_inspect E k f).
Proof. unfold eval_inspect. ggo. Qed.
#[local] Hint Resolve good_eval_inspect : gd.
Lemma good_handle_extern_decls t d : good (handle_extern_decls E k t d).
Proof. unfold handle_extern_decls. ggo. Qed.
#[local] Hint Resolve good_handle_extern_decls : gd.
Lemma good_handle_typedef t d : good (handle_typedef E t d).
Proof. unfold handle_typedef. ggo. Qed.
#[local] Hint Resolve good_handle_typedef : gd.
Lemma good_handle_forward_decl c : good (handle_forward_decl E c).
Proof. unfold handle_forward_decl. ggo. Qed.
#[local] Hint Resolve good_handle_forward_decl : gd.
Lemma good_handle_static_decl t l sp d : good (handle_static_decl E k t l sp d).
Proof. unfold handle_static_decl. ggo. Qed.
#[local] Hint Resolve good_handle_static_decl : gd.
Lemma good_eval_decl l sp d : good (eval_decl E k l sp d).
Proof. unfold eval_decl. ggo. Qed.
#[local] Hint Resolve good_eval_decl : gd.
Lemma good_eval_evaluator_ctx m : good (eval_evaluator_ctx E m).
Proof. unfold eval_evaluator_ctx. ggo. Qed.
#[local] Hint Resolve good_eval_evaluator_ctx : gd.
Lemma good_assign_integer t a r : good (assign_integer E t a r).
Proof. unfold assign_integer. ggo. Qed.
#[local] Hint Resolve good_assign_integer : gd.
Lemma good_assign_float t a r : good (assign_float E t a r).
Proof. unfold assign_float. ggo. Qed.
#[local] Hint Resolve good_assign_float : gd.
Lemma good_assign_ptr a r : good (assign_ptr E a r).
Proof. unfold assign_ptr. ggo. Qed.
#[local] Hint Resolve good_assign_ptr : gd.
Lemma good_eval_assign l x y : good (eval_assign E k l x y).
Proof. unfold eval_assign. ggo. Qed.
#[local] Hint Resolve good_eval_assign : gd.
Lemma good_live_var_add t a d : good (live_var_add E t a d).
Proof. unfold live_var_add. ggo. Qed.
#[local] Hint Resolve good_live_var_add : gd.
Lemma good_eval_post d e : good (eval_post E k d e).
Proof. unfold eval_post. ggo. Qed.
#[local] Hint Resolve good_eval_post : gd.
Lemma good_eval_pre d e : good (eval_pre E k d e).
Proof. unfold eval_pre. ggo. Qed.
#[local] Hint Resolve good_eval_pre : gd.
Lemma good_eval_negate e : good (eval_negate E k e).
Proof. unfold eval_negate. ggo. Qed.
#[local] Hint Resolve good_eval_negate : gd.
Lemma good_eval_ones_comp e : good (eval_ones_comp E k e).
Proof. unfold eval_ones_comp. ggo. Qed.
#[local] Hint Resolve good_eval_ones_comp : gd.
Lemma good_eval_binop o x y : good (eval_binop E k o x y).
Proof. unfold eval_binop. ggo. Qed.
#[local] Hint Resolve good_eval_binop : gd.
Lemma good_eval_comma x y : good (eval_comma k x y).
Proof. unfold eval_comma. ggo. Qed.
#[local] Hint Resolve good_eval_comma : gd.
Lemma good_eval_cmp o x y : good (eval_cmp E k o x y).
Proof. unfold eval_cmp. ggo. Qed.
#[local] Hint Resolve good_eval_cmp : gd.

Lemma good_eval_break : good eval_break.
Proof.
  split; intros s Hs; unfold eval_break, bind, upd_top; unfold ids_lt in Hs;
    destruct (stack s) as [|c cs] eqn:E1; cbn; auto; try lia.
  inversion Hs; subst. repeat split; cbn; try lia. unfold ids_lt. cbn. constructor; auto.
Qed.
#[local] Hint Resolve good_eval_break : gd.
Lemma good_eval_logic_or x y : good (eval_logic_or E k x y).
Proof. unfold eval_logic_or. ggo. Qed.
#[local] Hint Resolve good_eval_logic_or : gd.
Lemma good_eval_logic_and x y : good (eval_logic_and E k x y).
Proof. unfold eval_logic_and. ggo. Qed.
#[local] Hint Resolve good_eval_logic_and : gd.
Lemma good_eval_cast x y : good (eval_cast E k x y).
Proof. unfold eval_cast. ggo. Qed.
#[local] Hint Resolve good_eval_cast : gd.
Lemma good_eval_loop_for i c a b : good (eval_loop_for E k i c a b).
Proof.
  unfold eval_loop_for.
  apply good_bind; [ggo|]. intros _. apply good_bind; [ggo|]. intros cv.
  apply good_bind; [ggo|]. intros z. destruct (negb (truthy z)); [ggo|].
  apply good_push, goodp_bind; [ggo|]. intros _.
  apply goodp_brk; [apply good_ret|]. ggo.
Qed.
#[local] Hint Resolve good_eval_loop_for : gd.
Lemma good_eval_loop_while c b : good (eval_loop_while E k c b).
Proof.
  unfold eval_loop_while.
  apply good_bind; [ggo|]. intros cv.
  apply good_bind; [ggo|]. intros z. destruct (negb (truthy z)); [ggo|].
  apply good_push, goodp_bind; [ggo|]. intros _.
  apply goodp_brk; [apply good_ret|]. ggo.
Qed.
#[local] Hint Resolve good_eval_loop_while : gd.
Lemma good_eval_infix c a b : good (eval_infix E k c a b).
Proof. unfold eval_infix. ggo. Qed.
#[local] Hint Resolve good_eval_infix : gd.
Lemma good_eval_if c a b : good (eval_if E k c a b).
Proof. unfold eval_if. ggo. Qed.
#[local] Hint Resolve good_eval_if : gd.
Lemma good_eval_return l e : good (eval_return k l e).
Proof. unfold eval_return. ggo. Qed.
#[local] Hint Resolve good_eval_return : gd.
Lemma good_expand_decl_chain d : good (expand_decl_chain E d).
Proof. unfold expand_decl_chain. ggo. Qed.
#[local] Hint Resolve good_expand_decl_chain : gd.
Lemma good_alignment : forall t, good (get_alignment_for_type E k t).
Proof.
  fix IH 1. intros t. destruct t; cbn [get_alignment_for_type]; ggo.
Qed.
#[local] Hint Resolve good_alignment : gd.
Lemma good_set_comp l c : good (set_comp l c).
Proof. unfold set_comp. ggo. Qed.
#[local] Hint Resolve good_set_comp : gd.
Lemma good_upd_comp l f : good (upd_comp l f).
Proof. unfold upd_comp. ggo. Qed.
#[local] Hint Resolve good_upd_comp : gd.
Lemma good_layout_member l kd acc m : good (layout_member E k l kd acc m).
Proof. unfold layout_member. ggo. Qed.
#[local] Hint Resolve good_layout_member : gd.
Lemma good_eval_decl_compound t : good (eval_decl_compound E k t).
Proof. unfold eval_decl_compound. ggo. Qed.
#[local] Hint Resolve good_eval_decl_compound : gd.
Lemma good_enum_member v e : good (enum_member E k v e).
Proof. unfold enum_member. ggo. Qed.
#[local] Hint Resolve good_enum_member : gd.
Lemma good_eval_enumerator n es : good (eval_enumerator E k n es).
Proof. unfold eval_enumerator. ggo. Qed.
#[local] Hint Resolve good_eval_enumerator : gd.
Lemma good_eval_comp_access o m : good (eval_comp_access k o m).
Proof. unfold eval_comp_access. ggo. Qed.
#[local] Hint Resolve good_eval_comp_access : gd.
Lemma good_eval_repl : good (eval_repl E k).
Proof. unfold eval_repl. ggo. Qed.
#[local] Hint Resolve good_eval_repl : gd.
Lemma good_eval_array_access o i : good (eval_array_access E k o i).
Proof. unfold eval_array_access. ggo. Qed.
#[local] Hint Resolve good_eval_array_access : gd.
Lemma good_eval_sizeof e : good (eval_sizeof E k e).
Proof. unfold eval_sizeof. ggo. Qed.
#[local] Hint Resolve good_eval_sizeof : gd.
Lemma good_eval_type_specifier sp d : good (eval_type_specifier E k sp d).
Proof. unfold eval_type_specifier. ggo. Qed.
#[local] Hint Resolve good_eval_type_specifier : gd.
Lemma good_closure_type d : good (closure_type E d).
Proof. unfold closure_type. ggo. Qed.
#[local] Hint Resolve good_closure_type : gd.
Lemma good_get_entry_point f : good (get_entry_point_for_fn E f).
Proof. unfold get_entry_point_for_fn. ggo. Qed.
#[local] Hint Resolve good_get_entry_point : gd.
Lemma good_handle_addr_fn_def f : good (handle_addr_fn_def E f).
Proof. unfold handle_addr_fn_def. ggo. Qed.
#[local] Hint Resolve good_handle_addr_fn_def : gd.
Lemma good_eval_expr_list c : good (eval_expr_list k c).
Proof. unfold eval_expr_list. ggo. Qed.
#[local] Hint Resolve good_eval_expr_list : gd.
Lemma good_eval_addr e : good (eval_addr E k e).
Proof. unfold eval_addr. ggo. Qed.
#[local] Hint Resolve good_eval_addr : gd.
Lemma good_eval_deref e : good (eval_deref E k e).
Proof. unfold eval_deref. ggo. Qed.
#[local] Hint Resolve good_eval_deref : gd.
Lemma good_eval_cpp_include x : good (eval_cpp_include E k x).
Proof. unfold eval_cpp_include. ggo. Qed.
#[local] Hint Resolve good_eval_cpp_include : gd.

Lemma good_evaluate_1 t : good (evaluate_1 E k t).
Proof.
  destruct t; cbn [evaluate_1]; ggo.
  - split; intros s Hs; destruct (zfind l (statics s)) as [[m al]|].
    + apply (good_eval_evaluator_ctx m), Hs.
    + apply (good_eval_decl l t1 t2), Hs.
    + apply (good_eval_evaluator_ctx m), Hs.
    + apply (good_eval_decl l t1 t2), Hs.
  - split; intros s Hs; destruct (is_T_DECL_COMPOUND s (E_INCOMP_TYPE l)).
    + apply (good_eval_decl_compound (E_INCOMP_TYPE l)), Hs.
    + apply (good_ret tree NULL), Hs.
    + apply (good_eval_decl_compound (E_INCOMP_TYPE l)), Hs.
    + apply (good_ret tree NULL), Hs.
Qed.
End Knot.

Lemma K_good n :
  (forall t, good (k_ev (K E n) t)) /\
  (forall d t, good (k_hd (K E n) d t)) /\
  (forall d b, good (k_inst (K E n) d b)) /\
  (forall a l i, good (k_ext (K E n) a l i)).
Proof.
  induction n as [|n (IH1 & IH2 & IH3 & IH4)]; cbn [K k_ev k_hd k_inst k_ext].
  - repeat split; intros; apply good_fuel; auto.
  - repeat split; intros; [apply good_evaluate_1 | apply good_evaluate_1
      | apply good_handle_declarator | apply good_handle_declarator
      | apply good_instantiate_struct | apply good_instantiate_struct
      | apply good_ext_step | apply good_ext_step]; auto.
Qed.

Lemma ev_good n t : good (k_ev (K E n) t).
Proof. apply K_good. Qed.
Lemma stmts_good n t : good (evaluate_stmts E (K E n) t).
Proof. destruct (K_good n) as (H1 & H2 & H3 & H4). apply good_evaluate_stmts; auto. Qed.
End Env.
