(** What a [NoMemory] outcome means: malloc could not give the memory that was asked for.

    [K_refused]: whenever a function of the evaluator ends in [NoMemory n s'], malloc
    breaks its contract when asked for [n] bytes in state [s'].  [ev_refused] adds that [s'] was
    reached from the start state through elementary state changes (StepsFacts.v). *)
From Coq Require Import ZArith List String Bool Lia.
From Verif Require Import CInt Tree SpecResolver State Eval StepsFacts SpecRun.
Import ListNotations.
Local Open Scope Z_scope.
Local Open Scope m_scope.

Section Stuck.
Variable E : env.

Definition pst {A} (m : M A) : Prop := forall s n s', m s = NoMemory n s' -> refuses E n s'.

Lemma pst_bind A B (m : M A) (f : A -> M B) :
  pst m -> (forall a, pst (f a)) -> pst (bind m f).
Proof.
  intros Hm Hf s n s' H. unfold bind in H. destruct (m s) eqn:Em; try discriminate H.
  - eapply Hf, H.
  - injection H as <- <-. eapply Hm, Em.
Qed.

Lemma pst_leaf A (m : M A) : (forall s n s', m s <> NoMemory n s') -> pst m.
Proof. intros H2 s n s' H. destruct (H2 _ _ _ H). Qed.

Lemma pst_use A (m : M A) s n s' : pst m -> m s = NoMemory n s' -> refuses E n s'.
Proof. intros H. apply H. Qed.

Ltac leaf := apply pst_leaf; intros s n' s'; try (cbn; discriminate).
Lemma pst_ret A (a : A) : pst (ret a). Proof. leaf. Qed.
Lemma pst_die A : pst (@die A). Proof. leaf. Qed.
Lemma pst_abort A : pst (@abort A). Proof. leaf. Qed.
Lemma pst_exit A n : pst (@exit_ A n). Proof. leaf. Qed.
Lemma pst_ub A : pst (@ub A). Proof. leaf. Qed.
Lemma pst_fuel A : pst (@out_of_fuel A). Proof. leaf. Qed.
Lemma pst_unmodelled A : pst (@unmodelled A). Proof. leaf. Qed.
Lemma pst_longjmp A i : pst (@longjmp A i). Proof. leaf. Qed.
Lemma pst_get : pst get. Proof. leaf. Qed.
Lemma pst_gets A (f : state -> A) : pst (gets f). Proof. leaf. Qed.
Lemma pst_top : pst top.
Proof. leaf. unfold top. destruct (stack s); congruence. Qed.
Lemma pst_load a n : pst (load a n).
Proof. leaf. unfold load. destruct (valid s a n); congruence. Qed.
Lemma pst_modify f : pst (modify f). Proof. leaf. Qed.
Lemma pst_tick : pst (tick E). Proof. leaf. Qed.
Lemma pst_malloc n : pst (malloc E n).
Proof.
  intros s n' s' H a s1 H1. pose proof H as H2. unfold malloc in H2.
  destruct (_ && _); inversion H2; subst. congruence.
Qed.
Lemma pst_store a bytes : pst (store a bytes).
Proof. leaf. unfold store. destruct (valid _ _ _); congruence. Qed.
Lemma pst_fresh_id : pst fresh_id. Proof. leaf. Qed.
Lemma pst_pop_ctx : pst pop_ctx.
Proof. leaf. unfold pop_ctx. destruct (stack s) as [|c [|c' cs]]; congruence. Qed.
Lemma pst_push_ctx name : pst (push_ctx E name). Proof. leaf. Qed.
Lemma pst_upd_top f : pst (upd_top f).
Proof. leaf. unfold upd_top. destruct (stack s); congruence. Qed.

Lemma pst_iterM A (f : A -> M unit) l : (forall x, pst (f x)) -> pst (iterM f l).
Proof.
  intros Hf. induction l; cbn [iterM]; [apply pst_ret|].
  apply pst_bind; auto.
Qed.
Lemma pst_foldM A B (f : B -> A -> M B) l : (forall b x, pst (f b x)) ->
  forall acc, pst (foldM f acc l).
Proof.
  intros Hf. induction l; cbn [foldM]; intros; [apply pst_ret|].
  apply pst_bind; auto.
Qed.
Lemma pst_mapM A B (f : A -> M B) l : (forall x, pst (f x)) -> pst (mapM f l).
Proof.
  intros Hf. induction l; cbn [mapM]; [apply pst_ret|].
  apply pst_bind; auto. intros. apply pst_bind; auto. intros. apply pst_ret.
Qed.

Create HintDb stk discriminated.
Hint Constants Opaque : stk.
Hint Resolve pst_ret pst_die pst_abort pst_exit pst_ub pst_fuel
  pst_unmodelled pst_longjmp pst_get pst_gets pst_top pst_load pst_tick
  pst_malloc pst_store pst_fresh_id pst_pop_ctx pst_push_ctx
  pst_modify pst_upd_top : stk.

(** Structural decomposition. *)
Ltac stgo :=
  repeat first
    [ progress intros
    | match goal with
      | |- pst (bind _ _) => apply pst_bind
      | |- pst (iterM _ _) => apply pst_iterM
      | |- pst (foldM _ _ _) => apply pst_foldM
      | |- pst (mapM _ _) => apply pst_mapM
      | |- pst (match ?x with _ => _ end) => destruct x
      | |- pst (let '(_, _) := ?x in _) => destruct x
      end
    | solve [auto 2 with stk nocore]
    | progress (cbn beta iota zeta) ].

Lemma pst_track_alloc a : pst (track_alloc E a).
Proof. unfold track_alloc. stgo. Qed.
Hint Resolve pst_track_alloc : stk.
Lemma pst_make_live_var_addr : pst (make_live_var_addr E).
Proof. unfold make_live_var_addr. stgo. Qed.
Hint Resolve pst_make_live_var_addr : stk.
Lemma pst_resolve_identifier_global id : pst (resolve_identifier_global id).
Proof. unfold resolve_identifier_global. stgo. Qed.
Hint Resolve pst_resolve_identifier_global : stk.
Lemma pst_resolve_identifier_current id : pst (resolve_identifier_current id).
Proof. unfold resolve_identifier_current. stgo. Qed.
Hint Resolve pst_resolve_identifier_current : stk.
Lemma pst_resolve_compound c g : pst (resolve_compound c g).
Proof. unfold resolve_compound. stgo. Qed.
Hint Resolve pst_resolve_compound : stk.

Lemma pst_map_identifier id t : pst (map_identifier E id t).
Proof. unfold map_identifier, map_identifer_cur. stgo. Qed.
Hint Resolve pst_map_identifier : stk.

Lemma pst_map_compound c t : pst (map_compound E c t).
Proof. unfold map_compound. stgo. Qed.
Hint Resolve pst_map_compound : stk.
Lemma pst_eval_identifier t : pst (eval_identifier t).
Proof. unfold eval_identifier. stgo. Qed.
Hint Resolve pst_eval_identifier : stk.
Lemma pst_make_int type a : pst (make_int_from_live_var E type a).
Proof. unfold make_int_from_live_var. stgo. Qed.
Hint Resolve pst_make_int : stk.
Lemma pst_lv_to_int t : pst (lv_to_int E t).
Proof. unfold lv_to_int. stgo. Qed.
Hint Resolve pst_lv_to_int : stk.

Section Knot.
Variable k : knot.
Hypothesis Hev : forall t, pst (k_ev k t).
Hypothesis Hhd : forall d t, pst (k_hd k d t).
Hypothesis Hinst : forall d b, pst (k_inst k d b).
Hypothesis Hext : forall a l i, pst (k_ext k a l i).
Hint Resolve Hev Hhd Hinst Hext : stk.

Lemma pst_get_size_of_type type : pst (get_size_of_type E k type).
Proof. unfold get_size_of_type. stgo. Qed.
Hint Resolve pst_get_size_of_type : stk.
Lemma pst_convert t : pst (convert_to_comparable_type E k t).
Proof. unfold convert_to_comparable_type. stgo. Qed.
Hint Resolve pst_convert : stk.
Lemma pst_comparable t : pst (comparable E k t).
Proof. unfold comparable. stgo. Qed.
Hint Resolve pst_comparable : stk.
Lemma pst_eval_fn_args t : pst (eval_fn_args E k t).
Proof. unfold eval_fn_args. stgo. Qed.
Hint Resolve pst_eval_fn_args : stk.
Lemma pst_cscript_exit A t : pst (@cscript_exit E k A t).
Proof. unfold cscript_exit, get_c_main_return_value. stgo. Qed.
Hint Resolve pst_cscript_exit : stk.
Lemma pst_do_return v : pst (do_return E k v).
Proof. unfold do_return. stgo. Qed.
Hint Resolve pst_do_return : stk.
Lemma pst_evaluate_chain l : pst (evaluate_chain E k l).
Proof. induction l; cbn [evaluate_chain]; stgo. Qed.
Hint Resolve pst_evaluate_chain : stk.
Lemma pst_evaluate_stmts t : pst (evaluate_stmts E k t).
Proof. unfold evaluate_stmts. stgo. Qed.
Hint Resolve pst_evaluate_stmts : stk.
Lemma pst_get_ffi_type t : pst (get_ffi_type t).
Proof. unfold get_ffi_type. stgo. Qed.
Hint Resolve pst_get_ffi_type : stk.
Lemma pst_push_arg n c b p : pst (push_arg E n c b p).
Proof. unfold push_arg. stgo. Qed.
Hint Resolve pst_push_arg : stk.
Lemma pst_load_scalar c a : pst (load_scalar c a).
Proof. unfold load_scalar. stgo. Qed.
Hint Resolve pst_load_scalar : stk.
Lemma pst_marshal_arg p n v : pst (marshal_arg E p n v).
Proof. unfold marshal_arg. stgo. Qed.
Hint Resolve pst_marshal_arg : stk.
Lemma pst_marshal_args p l : forall n, pst (marshal_args E p n l).
Proof. induction l; cbn [marshal_args]; stgo. Qed.
Hint Resolve pst_marshal_args : stk.
Lemma pst_closure_args types : forall args, pst (closure_args E types args).
Proof. induction types; cbn [closure_args]; stgo. Qed.
Hint Resolve pst_closure_args : stk.
Lemma pst_closure_entry c args : pst (closure_entry E k c args).
Proof. unfold closure_entry. stgo. Qed.
Hint Resolve pst_closure_entry : stk.

Lemma pst_ext_step addr args i : pst (ext_step E k addr args i).
Proof. unfold ext_step. stgo. Qed.
Hint Resolve pst_ext_step : stk.

Lemma pst_do_ext_call addr args r p : pst (do_ext_call E k addr args r p).
Proof. unfold do_ext_call. stgo. Qed.
Hint Resolve pst_do_ext_call : stk.
Lemma pst_make_ret_lv t : pst (make_ret_lv E t).
Proof. unfold make_ret_lv. stgo. Qed.
Hint Resolve pst_make_ret_lv : stk.
Lemma pst_bind_param d v : pst (bind_param E k d v).
Proof. unfold bind_param. stgo. Qed.
Hint Resolve pst_bind_param : stk.
Lemma pst_bind_params d : forall v, pst (bind_params E k d v).
Proof. induction d; intros [|]; cbn [bind_params]; stgo. Qed.
Hint Resolve pst_bind_params : stk.

Lemma pst_pop_until i : pst (pop_until i).
Proof. leaf. unfold pop_until. destruct (drop_until i (stack s)); congruence. Qed.
Hint Resolve pst_pop_until : stk.

Lemma pst_catch A B j (m : M A) (f : A -> M B) (h : M B) :
  pst m -> (forall a, pst (f a)) -> pst h -> pst (catch j m f h).
Proof.
  intros Hm Hf Hh s n s' H. unfold catch in H.
  destruct (m s) eqn:Em; try discriminate H.
  - eapply Hf, H.
  - destruct (i =? j); [|discriminate H]. eapply Hh, H.
  - injection H as <- <-. eapply Hm, Em.
Qed.

Lemma pst_call_defined d a st v : pst (call_defined E k d a st v).
Proof. unfold call_defined. stgo; try (apply pst_catch; stgo). Qed.
Hint Resolve pst_call_defined : stk.
Lemma pst_handle_builtin b a : pst (handle_builtin E k b a).
Proof. unfold handle_builtin. stgo. Qed.
Hint Resolve pst_handle_builtin : stk.
Lemma pst_eval_fn_call i a : pst (eval_fn_call E k i a).
Proof. unfold eval_fn_call. stgo. Qed.
Hint Resolve pst_eval_fn_call : stk.
Lemma pst_make_and_map i t : pst (make_and_map_live_var E i t).
Proof. unfold make_and_map_live_var. stgo. Qed.
Hint Resolve pst_make_and_map : stk.
Lemma pst_get_array_size i t : pst (get_array_size E k i t).
Proof. unfold get_array_size. stgo. Qed.
Hint Resolve pst_get_array_size : stk.
Lemma pst_instantiate_array i t b l : pst (instantiate_array E i t b l).
Proof. unfold instantiate_array. stgo. Qed.
Hint Resolve pst_instantiate_array : stk.
Lemma pst_resolve_specs t : pst (resolve_specs E t).
Proof. unfold resolve_specs. stgo. Qed.
Hint Resolve pst_resolve_specs : stk.
Lemma pst_map_member i t m : pst (map_member E i t m).
Proof. unfold map_member. stgo. Qed.
Hint Resolve pst_map_member : stk.
Lemma pst_instantiate_struct_element b ms m : pst (instantiate_struct_element E k b ms m).
Proof. unfold instantiate_struct_element. stgo. Qed.
Hint Resolve pst_instantiate_struct_element : stk.
Lemma pst_instantiate_struct d b : pst (instantiate_struct E k d b).
Proof. unfold instantiate_struct. stgo. Qed.
Hint Resolve pst_instantiate_struct : stk.

Lemma pst_alloc_struct d : pst (alloc_struct E k d).
Proof. unfold alloc_struct. stgo. Qed.
Hint Resolve pst_alloc_struct : stk.

Lemma pst_alloc_array i z t : pst (alloc_array E k i z t).
Proof. unfold alloc_array. stgo. Qed.
Hint Resolve pst_alloc_array : stk.
Lemma pst_declare_array i z t : pst (declare_array E k i z t).
Proof. unfold declare_array. stgo. Qed.
Hint Resolve pst_declare_array : stk.
Lemma pst_declare_other d t : pst (declare_other E k d t).
Proof. unfold declare_other. stgo. Qed.
Hint Resolve pst_declare_other : stk.
Lemma pst_handle_declarator d t : pst (handle_declarator E k d t).
Proof. unfold handle_declarator. stgo. Qed.
Hint Resolve pst_handle_declarator : stk.
Lemma pst_map_typedef i : forall t, pst (map_typedef E i t).
Proof. induction i; intros; cbn [map_typedef]; stgo. Qed.
Hint Resolve pst_map_typedef : stk.
Lemma pst_handle_extern_fn r i a st : pst (handle_extern_fn E r i a st).
Proof. unfold handle_extern_fn. stgo. Qed.
Hint Resolve pst_handle_extern_fn : stk.
Lemma pst_resolve_symbol i : pst (resolve_symbol E i).
Proof. unfold resolve_symbol. stgo. Qed.
Hint Resolve pst_resolve_symbol : stk.
Lemma pst_handle_extern_decl t d : pst (handle_extern_decl E k t d).
Proof. unfold handle_extern_decl. stgo. Qed.
Hint Resolve pst_handle_extern_decl : stk.
Lemma pst_eval_ext_func f : pst (eval_ext_func E k f).
Proof. unfold eval_ext_func. stgo. Qed.
Hint Resolve pst_eval_ext_func : stk.
Lemma pst_eval_inspect f : pst (eval_inspect E k f).
Proof. unfold eval_inspect. stgo. Qed.
Hint Resolve pst_eval_inspect : stk.
Lemma pst_each_decl f d : (forall x, pst (f x)) -> pst (each_decl f d).
Proof. intros. unfold each_decl. stgo. Qed.
Lemma pst_handle_extern_decls t d : pst (handle_extern_decls E k t d).
Proof. unfold handle_extern_decls. apply pst_each_decl. stgo. Qed.
Hint Resolve pst_handle_extern_decls : stk.
Lemma pst_handle_typedef t d : pst (handle_typedef E t d).
Proof. unfold handle_typedef. apply pst_each_decl. stgo. Qed.
Hint Resolve pst_handle_typedef : stk.
Lemma pst_handle_forward_decl c : pst (handle_forward_decl E c).
Proof. unfold handle_forward_decl. stgo. Qed.
Hint Resolve pst_handle_forward_decl : stk.

Lemma pst_handle_static_decl t l sp d : pst (handle_static_decl E k t l sp d).
Proof. unfold handle_static_decl. stgo; apply pst_each_decl; stgo. Qed.
Hint Resolve pst_handle_static_decl : stk.

Lemma pst_eval_decl l sp d : pst (eval_decl E k l sp d).
Proof. unfold eval_decl. stgo; apply pst_each_decl; stgo. Qed.
Hint Resolve pst_eval_decl : stk.
Lemma pst_eval_evaluator_ctx m : pst (eval_evaluator_ctx E m).
Proof. unfold eval_evaluator_ctx. stgo. Qed.
Hint Resolve pst_eval_evaluator_ctx : stk.
Lemma pst_assign_integer t a r : pst (assign_integer E t a r).
Proof. unfold assign_integer. stgo. Qed.
Hint Resolve pst_assign_integer : stk.
Lemma pst_assign_float t a r : pst (assign_float E t a r).
Proof. unfold assign_float. stgo. Qed.
Hint Resolve pst_assign_float : stk.
Lemma pst_assign_ptr a r : pst (assign_ptr E a r).
Proof. unfold assign_ptr. stgo. Qed.
Hint Resolve pst_assign_ptr : stk.
Lemma pst_eval_assign l x y : pst (eval_assign E k l x y).
Proof. unfold eval_assign. stgo. Qed.
Hint Resolve pst_eval_assign : stk.
Lemma pst_live_var_add t a d : pst (live_var_add E t a d).
Proof. unfold live_var_add. stgo. Qed.
Hint Resolve pst_live_var_add : stk.
Lemma pst_eval_post d e : pst (eval_post E k d e).
Proof. unfold eval_post. stgo. Qed.
Hint Resolve pst_eval_post : stk.
Lemma pst_eval_pre d e : pst (eval_pre E k d e).
Proof. unfold eval_pre. stgo. Qed.
Hint Resolve pst_eval_pre : stk.
Lemma pst_eval_negate e : pst (eval_negate E k e).
Proof. unfold eval_negate. stgo. Qed.
Hint Resolve pst_eval_negate : stk.
Lemma pst_eval_ones_comp e : pst (eval_ones_comp E k e).
Proof. unfold eval_ones_comp. stgo. Qed.
Hint Resolve pst_eval_ones_comp : stk.
Lemma pst_eval_binop o x y : pst (eval_binop E k o x y).
Proof. unfold eval_binop. stgo. Qed.
Hint Resolve pst_eval_binop : stk.
Lemma pst_eval_comma x y : pst (eval_comma k x y).
Proof. unfold eval_comma. stgo. Qed.
Hint Resolve pst_eval_comma : stk.
Lemma pst_eval_cmp o x y : pst (eval_cmp E k o x y).
Proof. unfold eval_cmp. stgo. Qed.
Hint Resolve pst_eval_cmp : stk.
Lemma pst_eval_break : pst eval_break.
Proof. unfold eval_break. stgo. Qed.
Hint Resolve pst_eval_break : stk.
Lemma pst_eval_logic_or x y : pst (eval_logic_or E k x y).
Proof. unfold eval_logic_or. stgo. Qed.
Hint Resolve pst_eval_logic_or : stk.
Lemma pst_eval_logic_and x y : pst (eval_logic_and E k x y).
Proof. unfold eval_logic_and. stgo. Qed.
Hint Resolve pst_eval_logic_and : stk.
Lemma pst_eval_cast x y : pst (eval_cast E k x y).
Proof. unfold eval_cast. stgo. Qed.
Hint Resolve pst_eval_cast : stk.
Lemma pst_eval_loop_for i c a b : pst (eval_loop_for E k i c a b).
Proof. unfold eval_loop_for. stgo. Qed.
Hint Resolve pst_eval_loop_for : stk.
Lemma pst_eval_loop_while c b : pst (eval_loop_while E k c b).
Proof. unfold eval_loop_while. stgo. Qed.
Hint Resolve pst_eval_loop_while : stk.
Lemma pst_eval_infix c a b : pst (eval_infix E k c a b).
Proof. unfold eval_infix. stgo. Qed.
Hint Resolve pst_eval_infix : stk.
Lemma pst_eval_if c a b : pst (eval_if E k c a b).
Proof. unfold eval_if. stgo. Qed.
Hint Resolve pst_eval_if : stk.
Lemma pst_eval_return l e : pst (eval_return k l e).
Proof. unfold eval_return. stgo. Qed.
Hint Resolve pst_eval_return : stk.
Lemma pst_expand_decl_chain d : pst (expand_decl_chain E d).
Proof. unfold expand_decl_chain. stgo. Qed.
Hint Resolve pst_expand_decl_chain : stk.
Lemma pst_alignment : forall t, pst (get_alignment_for_type E k t).
Proof.
  fix IH 1. intros t. destruct t; cbn [get_alignment_for_type]; stgo.
Qed.
Hint Resolve pst_alignment : stk.
Lemma pst_set_comp l c : pst (set_comp l c).
Proof. unfold set_comp. stgo. Qed.
Hint Resolve pst_set_comp : stk.
Lemma pst_upd_comp l f : pst (upd_comp l f).
Proof. unfold upd_comp. stgo. Qed.
Hint Resolve pst_upd_comp : stk.
Lemma pst_layout_member l kd acc m : pst (layout_member E k l kd acc m).
Proof. unfold layout_member. stgo. Qed.
Hint Resolve pst_layout_member : stk.
Lemma pst_eval_decl_compound t : pst (eval_decl_compound E k t).
Proof. unfold eval_decl_compound. stgo. Qed.
Hint Resolve pst_eval_decl_compound : stk.
Lemma pst_enum_member v e : pst (enum_member E k v e).
Proof. unfold enum_member. stgo. Qed.
Hint Resolve pst_enum_member : stk.
Lemma pst_eval_enumerator n es : pst (eval_enumerator E k n es).
Proof. unfold eval_enumerator. stgo. Qed.
Hint Resolve pst_eval_enumerator : stk.
Lemma pst_eval_comp_access o m : pst (eval_comp_access k o m).
Proof. unfold eval_comp_access. stgo. Qed.
Hint Resolve pst_eval_comp_access : stk.
Lemma pst_eval_repl : pst (eval_repl E k).
Proof. unfold eval_repl. stgo. Qed.
Hint Resolve pst_eval_repl : stk.
Lemma pst_eval_array_access o i : pst (eval_array_access E k o i).
Proof. unfold eval_array_access. stgo. Qed.
Hint Resolve pst_eval_array_access : stk.
Lemma pst_eval_sizeof e : pst (eval_sizeof E k e).
Proof. unfold eval_sizeof. stgo. Qed.
Hint Resolve pst_eval_sizeof : stk.
Lemma pst_eval_type_specifier sp d : pst (eval_type_specifier E k sp d).
Proof. unfold eval_type_specifier. stgo. Qed.
Hint Resolve pst_eval_type_specifier : stk.
Lemma pst_closure_type d : pst (closure_type E d).
Proof. unfold closure_type. stgo. Qed.
Hint Resolve pst_closure_type : stk.
Lemma pst_get_entry_point f : pst (get_entry_point_for_fn E f).
Proof. unfold get_entry_point_for_fn. stgo. Qed.
Hint Resolve pst_get_entry_point : stk.
Lemma pst_handle_addr_fn_def f : pst (handle_addr_fn_def E f).
Proof. unfold handle_addr_fn_def. stgo. Qed.
Hint Resolve pst_handle_addr_fn_def : stk.
Lemma pst_eval_expr_list c : pst (eval_expr_list k c).
Proof. unfold eval_expr_list. stgo. Qed.
Hint Resolve pst_eval_expr_list : stk.
Lemma pst_eval_addr e : pst (eval_addr E k e).
Proof. unfold eval_addr. stgo. Qed.
Hint Resolve pst_eval_addr : stk.
Lemma pst_eval_deref e : pst (eval_deref E k e).
Proof. unfold eval_deref. stgo. Qed.
Hint Resolve pst_eval_deref : stk.
Lemma pst_eval_cpp_include x : pst (eval_cpp_include E k x).
Proof. unfold eval_cpp_include. stgo. Qed.
Hint Resolve pst_eval_cpp_include : stk.

Lemma pst_evaluate_1 t : pst (evaluate_1 E k t).
Proof.
  destruct t; cbn [evaluate_1]; stgo.
  - intros s n s' H. destruct (zfind l (statics s)) as [[m al]|];
      (eapply pst_use; [|exact H]); [apply pst_eval_evaluator_ctx | apply pst_eval_decl].
  - intros s n s' H. destruct (is_T_DECL_COMPOUND s (E_INCOMP_TYPE l)); [|discriminate H].
    eapply pst_use; [|exact H]; apply pst_eval_decl_compound.
Qed.
End Knot.

(** All functions at every recursion depth. *)
Lemma K_refused n :
  (forall t, pst (k_ev (K E n) t)) /\
  (forall d t, pst (k_hd (K E n) d t)) /\
  (forall d b, pst (k_inst (K E n) d b)) /\
  (forall a l i, pst (k_ext (K E n) a l i)).
Proof.
  induction n as [|n (IH1 & IH2 & IH3 & IH4)]; cbn [K k_ev k_hd k_inst k_ext].
  - split; [|split; [|split]]; intros; apply pst_fuel.
  - split; [|split; [|split]]; intros; [apply pst_evaluate_1 | apply pst_handle_declarator
      | apply pst_instantiate_struct | apply pst_ext_step]; auto.
Qed.

Lemma ev_refused n t s m s' : k_ev (K E n) t s = NoMemory m s' -> steps E s s' /\ refuses E m s'.
Proof.
  intros H. destruct (K_refused n) as (H1 & _). split; [|eapply H1, H].
  eapply ev_steps. rewrite H. reflexivity.
Qed.

Lemma stmts_refused n t s m s' :
  evaluate_stmts E (K E n) t s = NoMemory m s' -> steps E s s' /\ refuses E m s'.
Proof.
  intros H. destruct (K_refused n) as (H1 & H2 & H3 & H4). split.
  - eapply stmts_steps. rewrite H. reflexivity.
  - eapply pst_use; [|exact H]. apply pst_evaluate_stmts; auto.
Qed.

(** Out of memory. *)
Lemma oom t s n s' : runs E s t (NoMemory n s') -> out_of_memory E s t n.
Proof.
  intros H. exists s'. split; [exact H|]. destruct H as (_ & m & H). unfold evaluate_expr in H. eapply ev_refused, H.
Qed.

End Stuck.

Lemma refuses_spec E s n : 0 < n -> (refuses E n s <->
  ~ (0 < e_malloc E s n /\ e_malloc E s n + n <= 2 ^ 63 /\
     forall b, In b (blocks s) -> e_malloc E s n + n <= b_base b \/ b_base b + Z.max (b_size b) 1 <= e_malloc E s n)).
Proof.
  intros Hn. unfold refuses, malloc.
  assert (H : (0 <? e_malloc E s n) && (e_malloc E s n + Z.max n 1 <=? 2 ^ 63) &&
      forallb (disjoint_blocks (e_malloc E s n) n) (blocks s) = true <->
    0 < e_malloc E s n /\ e_malloc E s n + n <= 2 ^ 63 /\
     forall b, In b (blocks s) -> e_malloc E s n + n <= b_base b \/ b_base b + Z.max (b_size b) 1 <= e_malloc E s n).
  { rewrite !andb_true_iff, Z.ltb_lt, Z.leb_le, forallb_forall, and_assoc. unfold disjoint_blocks.
    replace (Z.max n 1) with n by lia.
    split; intros (H1 & H2 & H3); (split; [exact H1|split; [exact H2|]]); intros b Hb; specialize (H3 b Hb).
    - apply orb_true_iff in H3. rewrite !Z.leb_le in H3. exact H3.
    - apply orb_true_iff. rewrite !Z.leb_le. exact H3. }
  rewrite <- H. destruct (_ && _ && _).
  - split; [intros H0; exfalso; exact (H0 _ _ eq_refl) | intros H0; exfalso; apply H0; reflexivity].
  - split; [intros _; discriminate | intros _ a s'; discriminate].
Qed.
