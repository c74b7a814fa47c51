(** Fuel monotonicity: a run that does not exhaust its recursion depth has the same outcome
    at every larger depth. *)
From Coq Require Import ZArith List String Bool Lia.
From Verif Require Import CInt Tree SpecResolver State Eval.
Import ListNotations.
Local Open Scope Z_scope.
Local Open Scope m_scope.

Definition mle {A} (m m' : M A) : Prop := forall s, m s <> Fuel -> m' s = m s.

Lemma mle_refl A (m : M A) : mle m m.
Proof. intros s _; reflexivity. Qed.

Lemma mle_fuel A (m : M A) : mle out_of_fuel m.
Proof. intros s H. exfalso; apply H; reflexivity. Qed.

Lemma mle_bind A B (m m' : M A) (f f' : A -> M B) :
  mle m m' -> (forall a, mle (f a) (f' a)) -> mle (bind m f) (bind m' f').
Proof.
  intros Hm Hf s H. unfold bind in *. specialize (Hm s).
  destruct (m s) eqn:Em; try (rewrite Hm by congruence; reflexivity).
  rewrite Hm by congruence. apply Hf, H.
Qed.

Lemma mle_catch A B j (m m' : M A) (f f' : A -> M B) (h h' : M B) :
  mle m m' -> (forall a, mle (f a) (f' a)) -> mle h h' -> mle (catch j m f h) (catch j m' f' h').
Proof.
  intros Hm Hf Hh s H. unfold catch in *. specialize (Hm s).
  destruct (m s) eqn:Em; try (rewrite Hm by congruence; reflexivity).
  - rewrite Hm by congruence. apply Hf, H.
  - rewrite Hm by congruence. destruct (i =? j); [apply Hh, H | reflexivity].
Qed.

Lemma mle_iterM A (f f' : A -> M unit) l : (forall x, mle (f x) (f' x)) -> mle (iterM f l) (iterM f' l).
Proof.
  intros Hf. induction l; cbn [iterM]; [apply mle_refl|]. apply mle_bind; auto.
Qed.
Lemma mle_foldM A B (f f' : B -> A -> M B) l : (forall b x, mle (f b x) (f' b x)) ->
  forall acc, mle (foldM f acc l) (foldM f' acc l).
Proof.
  intros Hf. induction l; cbn [foldM]; intros; [apply mle_refl|]. apply mle_bind; auto.
Qed.
Lemma mle_mapM A B (f f' : A -> M B) l : (forall x, mle (f x) (f' x)) -> mle (mapM f l) (mapM f' l).
Proof.
  intros Hf. induction l; cbn [mapM]; [apply mle_refl|].
  apply mle_bind; auto. intros. apply mle_bind; auto. intros. apply mle_refl.
Qed.
Lemma mle_each_decl f f' d : (forall x, mle (f x) (f' x)) -> mle (each_decl f d) (each_decl f' d).
Proof.
  intros Hf. unfold each_decl. destruct d; auto. apply mle_foldM. auto.
Qed.

Create HintDb ml discriminated.
#[local] Hint Constants Opaque : ml.

Ltac mlgo :=
  repeat first
    [ progress intros
    | match goal with
      | |- mle ?m ?m => apply mle_refl
      | |- mle (bind _ _) (bind _ _) => apply mle_bind
      | |- mle (catch _ _ _ _) (catch _ _ _ _) => apply mle_catch
      | |- mle (iterM _ _) (iterM _ _) => apply mle_iterM
      | |- mle (foldM _ _ _) (foldM _ _ _) => apply mle_foldM
      | |- mle (mapM _ _) (mapM _ _) => apply mle_mapM
      | |- mle (each_decl _ _) (each_decl _ _) => apply mle_each_decl
      | |- mle (match ?x with _ => _ end) _ => destruct x
      end
    | solve [auto 2 with ml nocore]
    | progress (cbn beta iota zeta) ].

Section Mono.
Variable E : env.
Variables k k' : knot.
Hypothesis Hev : forall t, mle (k_ev k t) (k_ev k' t).
Hypothesis Hhd : forall d t, mle (k_hd k d t) (k_hd k' d t).
Hypothesis Hinst : forall d b, mle (k_inst k d b) (k_inst k' d b).
Hypothesis Hext : forall a l i, mle (k_ext k a l i) (k_ext k' a l i).
#[local] Hint Resolve Hev Hhd Hinst Hext : ml.

Lemma mle_cscript_exit A t : mle (@cscript_exit E k A t) (@cscript_exit E k' A t).
Proof.
  unfold cscript_exit, get_c_main_return_value, comparable, convert_to_comparable_type. mlgo.
Qed.
#[local] Hint Resolve mle_cscript_exit : ml.
Lemma mle_get_size_of_type t : mle (get_size_of_type E k t) (get_size_of_type E k' t).
Proof. unfold get_size_of_type. mlgo. Qed.
#[local] Hint Resolve mle_get_size_of_type : ml.
Lemma mle_convert_to_comparable_type t : mle (convert_to_comparable_type E k t) (convert_to_comparable_type E k' t).
Proof. unfold convert_to_comparable_type. mlgo. Qed.
#[local] Hint Resolve mle_convert_to_comparable_type : ml.
Lemma mle_comparable t : mle (comparable E k t) (comparable E k' t).
Proof. unfold comparable. mlgo. Qed.
#[local] Hint Resolve mle_comparable : ml.
Lemma mle_eval_fn_args t : mle (eval_fn_args E k t) (eval_fn_args E k' t).
Proof. unfold eval_fn_args. mlgo. Qed.
#[local] Hint Resolve mle_eval_fn_args : ml.
Lemma mle_do_return v : mle (do_return E k v) (do_return E k' v).
Proof. unfold do_return. mlgo. Qed.
#[local] Hint Resolve mle_do_return : ml.
Lemma mle_evaluate_chain l : mle (evaluate_chain E k l) (evaluate_chain E k' l).
Proof. induction l; cbn [evaluate_chain]; mlgo. Qed.
#[local] Hint Resolve mle_evaluate_chain : ml.
Lemma mle_evaluate_stmts t : mle (evaluate_stmts E k t) (evaluate_stmts E k' t).
Proof. unfold evaluate_stmts. mlgo. Qed.
#[local] Hint Resolve mle_evaluate_stmts : ml.
Lemma mle_closure_entry c args : mle (closure_entry E k c args) (closure_entry E k' c args).
Proof. unfold closure_entry. mlgo. Qed.
#[local] Hint Resolve mle_closure_entry : ml.
Lemma mle_ext_step addr args i : mle (ext_step E k addr args i) (ext_step E k' addr args i).
Proof. unfold ext_step. mlgo. Qed.
#[local] Hint Resolve mle_ext_step : ml.
Lemma mle_do_ext_call addr args r p : mle (do_ext_call E k addr args r p) (do_ext_call E k' addr args r p).
Proof. unfold do_ext_call. mlgo. Qed.
#[local] Hint Resolve mle_do_ext_call : ml.
Lemma mle_bind_param d v : mle (bind_param E k d v) (bind_param E k' d v).
Proof. unfold bind_param. mlgo. Qed.
#[local] Hint Resolve mle_bind_param : ml.
Lemma mle_bind_params d v : mle (bind_params E k d v) (bind_params E k' d v).
Proof. revert v. induction d; intros [|]; cbn [bind_params]; mlgo. Qed.
#[local] Hint Resolve mle_bind_params : ml.
Lemma mle_call_defined d a st v : mle (call_defined E k d a st v) (call_defined E k' d a st v).
Proof. unfold call_defined. mlgo. Qed.
#[local] Hint Resolve mle_call_defined : ml.
Lemma mle_handle_builtin b a : mle (handle_builtin E k b a) (handle_builtin E k' b a).
Proof. unfold handle_builtin. mlgo. Qed.
#[local] Hint Resolve mle_handle_builtin : ml.
Lemma mle_eval_fn_call i a : mle (eval_fn_call E k i a) (eval_fn_call E k' i a).
Proof. unfold eval_fn_call. mlgo. Qed.
#[local] Hint Resolve mle_eval_fn_call : ml.
Lemma mle_get_array_size i t : mle (get_array_size E k i t) (get_array_size E k' i t).
Proof. unfold get_array_size. mlgo. Qed.
#[local] Hint Resolve mle_get_array_size : ml.
Lemma mle_instantiate_struct_element b ms m : mle (instantiate_struct_element E k b ms m) (instantiate_struct_element E k' b ms m).
Proof. unfold instantiate_struct_element. mlgo. Qed.
#[local] Hint Resolve mle_instantiate_struct_element : ml.
Lemma mle_instantiate_struct d b : mle (instantiate_struct E k d b) (instantiate_struct E k' d b).
Proof. unfold instantiate_struct. mlgo. Qed.
#[local] Hint Resolve mle_instantiate_struct : ml.
Lemma mle_alloc_struct d : mle (alloc_struct E k d) (alloc_struct E k' d).
Proof. unfold alloc_struct. mlgo. Qed.
#[local] Hint Resolve mle_alloc_struct : ml.
Lemma mle_alloc_array i z t : mle (alloc_array E k i z t) (alloc_array E k' i z t).
Proof. unfold alloc_array. mlgo. Qed.
#[local] Hint Resolve mle_alloc_array : ml.
Lemma mle_declare_array i z t : mle (declare_array E k i z t) (declare_array E k' i z t).
Proof. unfold declare_array. mlgo. Qed.
#[local] Hint Resolve mle_declare_array : ml.
Lemma mle_declare_other d t : mle (declare_other E k d t) (declare_other E k' d t).
Proof. unfold declare_other. mlgo. Qed.
#[local] Hint Resolve mle_declare_other : ml.
Lemma mle_handle_declarator d t : mle (handle_declarator E k d t) (handle_declarator E k' d t).
Proof. unfold handle_declarator. mlgo. Qed.
#[local] Hint Resolve mle_handle_declarator : ml.
Lemma mle_handle_extern_decl t d : mle (handle_extern_decl E k t d) (handle_extern_decl E k' t d).
Proof. unfold handle_extern_decl. mlgo. Qed.
#[local] Hint Resolve mle_handle_extern_decl : ml.
Lemma mle_eval_ext_func f : mle (eval_ext_func E k f) (eval_ext_func E k' f).
Proof. unfold eval_ext_func. mlgo. Qed.
#[local] Hint Resolve mle_eval_ext_func : ml.
Lemma mle_eval_inspect f : mle (eval_inspect E k f) (eval_inspect E k' f).
Proof. unfold eval_inspect. mlgo. Qed.
#[local] Hint Resolve mle_eval_inspect : ml.
Lemma mle_handle_extern_decls t d : mle (handle_extern_decls E k t d) (handle_extern_decls E k' t d).
Proof. unfold handle_extern_decls. mlgo. Qed.
#[local] Hint Resolve mle_handle_extern_decls : ml.
Lemma mle_handle_static_decl t l sp d : mle (handle_static_decl E k t l sp d) (handle_static_decl E k' t l sp d).
Proof. unfold handle_static_decl. mlgo. Qed.
#[local] Hint Resolve mle_handle_static_decl : ml.
Lemma mle_eval_decl l sp d : mle (eval_decl E k l sp d) (eval_decl E k' l sp d).
Proof. unfold eval_decl. mlgo. Qed.
#[local] Hint Resolve mle_eval_decl : ml.
Lemma mle_eval_assign l x y : mle (eval_assign E k l x y) (eval_assign E k' l x y).
Proof. unfold eval_assign. mlgo. Qed.
#[local] Hint Resolve mle_eval_assign : ml.
Lemma mle_eval_post d e : mle (eval_post E k d e) (eval_post E k' d e).
Proof. unfold eval_post. mlgo. Qed.
#[local] Hint Resolve mle_eval_post : ml.
Lemma mle_eval_pre d e : mle (eval_pre E k d e) (eval_pre E k' d e).
Proof. unfold eval_pre. mlgo. Qed.
#[local] Hint Resolve mle_eval_pre : ml.
Lemma mle_eval_negate e : mle (eval_negate E k e) (eval_negate E k' e).
Proof. unfold eval_negate. mlgo. Qed.
#[local] Hint Resolve mle_eval_negate : ml.
Lemma mle_eval_ones_comp e : mle (eval_ones_comp E k e) (eval_ones_comp E k' e).
Proof. unfold eval_ones_comp. mlgo. Qed.
#[local] Hint Resolve mle_eval_ones_comp : ml.
Lemma mle_eval_binop o x y : mle (eval_binop E k o x y) (eval_binop E k' o x y).
Proof. unfold eval_binop. mlgo. Qed.
#[local] Hint Resolve mle_eval_binop : ml.
Lemma mle_eval_comma x y : mle (eval_comma k x y) (eval_comma k' x y).
Proof. unfold eval_comma. mlgo. Qed.
#[local] Hint Resolve mle_eval_comma : ml.
Lemma mle_eval_cmp o x y : mle (eval_cmp E k o x y) (eval_cmp E k' o x y).
Proof. unfold eval_cmp. mlgo. Qed.
#[local] Hint Resolve mle_eval_cmp : ml.
Lemma mle_eval_logic_or x y : mle (eval_logic_or E k x y) (eval_logic_or E k' x y).
Proof. unfold eval_logic_or. mlgo. Qed.
#[local] Hint Resolve mle_eval_logic_or : ml.
Lemma mle_eval_logic_and x y : mle (eval_logic_and E k x y) (eval_logic_and E k' x y).
Proof. unfold eval_logic_and. mlgo. Qed.
#[local] Hint Resolve mle_eval_logic_and : ml.
Lemma mle_eval_cast x y : mle (eval_cast E k x y) (eval_cast E k' x y).
Proof. unfold eval_cast. mlgo. Qed.
#[local] Hint Resolve mle_eval_cast : ml.
Lemma mle_eval_loop_for i c a b : mle (eval_loop_for E k i c a b) (eval_loop_for E k' i c a b).
Proof. unfold eval_loop_for. mlgo. Qed.
#[local] Hint Resolve mle_eval_loop_for : ml.
Lemma mle_eval_loop_while c b : mle (eval_loop_while E k c b) (eval_loop_while E k' c b).
Proof. unfold eval_loop_while. mlgo. Qed.
#[local] Hint Resolve mle_eval_loop_while : ml.
Lemma mle_eval_infix c a b : mle (eval_infix E k c a b) (eval_infix E k' c a b).
Proof. unfold eval_infix. mlgo. Qed.
#[local] Hint Resolve mle_eval_infix : ml.
Lemma mle_eval_if c a b : mle (eval_if E k c a b) (eval_if E k' c a b).
Proof. unfold eval_if. mlgo. Qed.
#[local] Hint Resolve mle_eval_if : ml.
Lemma mle_eval_return l e : mle (eval_return k l e) (eval_return k' l e).
Proof. unfold eval_return. mlgo. Qed.
#[local] Hint Resolve mle_eval_return : ml.
Lemma mle_get_alignment_for_type t : mle (get_alignment_for_type E k t) (get_alignment_for_type E k' t).
Proof.
  revert t. fix IH 1. intros t. destruct t; cbn [get_alignment_for_type]; mlgo.
Qed.
#[local] Hint Resolve mle_get_alignment_for_type : ml.
Lemma mle_layout_member l kd acc m : mle (layout_member E k l kd acc m) (layout_member E k' l kd acc m).
Proof. unfold layout_member. mlgo. Qed.
#[local] Hint Resolve mle_layout_member : ml.
Lemma mle_eval_decl_compound t : mle (eval_decl_compound E k t) (eval_decl_compound E k' t).
Proof. unfold eval_decl_compound. mlgo. Qed.
#[local] Hint Resolve mle_eval_decl_compound : ml.
Lemma mle_enum_member v e : mle (enum_member E k v e) (enum_member E k' v e).
Proof. unfold enum_member. mlgo. Qed.
#[local] Hint Resolve mle_enum_member : ml.
Lemma mle_eval_enumerator n es : mle (eval_enumerator E k n es) (eval_enumerator E k' n es).
Proof. unfold eval_enumerator. mlgo. Qed.
#[local] Hint Resolve mle_eval_enumerator : ml.
Lemma mle_eval_comp_access o m : mle (eval_comp_access k o m) (eval_comp_access k' o m).
Proof. unfold eval_comp_access. mlgo. Qed.
#[local] Hint Resolve mle_eval_comp_access : ml.
Lemma mle_eval_repl : mle (eval_repl E k ) (eval_repl E k' ).
Proof. unfold eval_repl. mlgo. Qed.
#[local] Hint Resolve mle_eval_repl : ml.
Lemma mle_eval_array_access o i : mle (eval_array_access E k o i) (eval_array_access E k' o i).
Proof. unfold eval_array_access. mlgo. Qed.
#[local] Hint Resolve mle_eval_array_access : ml.
Lemma mle_eval_sizeof e : mle (eval_sizeof E k e) (eval_sizeof E k' e).
Proof. unfold eval_sizeof. mlgo. Qed.
#[local] Hint Resolve mle_eval_sizeof : ml.
Lemma mle_eval_type_specifier sp d : mle (eval_type_specifier E k sp d) (eval_type_specifier E k' sp d).
Proof. unfold eval_type_specifier. mlgo. Qed.
#[local] Hint Resolve mle_eval_type_specifier : ml.
Lemma mle_eval_expr_list c : mle (eval_expr_list k c) (eval_expr_list k' c).
Proof. unfold eval_expr_list. mlgo. Qed.
#[local] Hint Resolve mle_eval_expr_list : ml.
Lemma mle_eval_addr e : mle (eval_addr E k e) (eval_addr E k' e).
Proof. unfold eval_addr. mlgo. Qed.
#[local] Hint Resolve mle_eval_addr : ml.
Lemma mle_eval_deref e : mle (eval_deref E k e) (eval_deref E k' e).
Proof. unfold eval_deref. mlgo. Qed.
#[local] Hint Resolve mle_eval_deref : ml.
Lemma mle_eval_cpp_include x : mle (eval_cpp_include E k x) (eval_cpp_include E k' x).
Proof. unfold eval_cpp_include. mlgo. Qed.
#[local] Hint Resolve mle_eval_cpp_include : ml.

Lemma mle_evaluate_1 t : mle (evaluate_1 E k t) (evaluate_1 E k' t).
Proof.
  destruct t; cbn [evaluate_1]; mlgo.
  - intros s. destruct (zfind l (statics s)) as [[m al]|]; [reflexivity|]. apply mle_eval_decl.
  - intros s. destruct (is_T_DECL_COMPOUND s (E_INCOMP_TYPE l)); [|reflexivity].
    apply mle_eval_decl_compound.
Qed.
End Mono.

Lemma K_mono E n :
  (forall t, mle (k_ev (K E n) t) (k_ev (K E (S n)) t)) /\
  (forall d t, mle (k_hd (K E n) d t) (k_hd (K E (S n)) d t)) /\
  (forall d b, mle (k_inst (K E n) d b) (k_inst (K E (S n)) d b)) /\
  (forall a l i, mle (k_ext (K E n) a l i) (k_ext (K E (S n)) a l i)).
Proof.
  induction n as [|n (IH1 & IH2 & IH3 & IH4)].
  - repeat split; intros; apply mle_fuel.
  - repeat split; intros; [apply (mle_evaluate_1 E (K E n) (K E (S n)))
      | apply (mle_handle_declarator E (K E n) (K E (S n)))
      | apply (mle_instantiate_struct E (K E n) (K E (S n)))
      | apply (mle_ext_step E (K E n) (K E (S n)))]; auto.
Qed.

Lemma mle_trans A (m1 m2 m3 : M A) : mle m1 m2 -> mle m2 m3 -> mle m1 m3.
Proof. intros H1 H2 s H. rewrite H2; rewrite (H1 s H); auto. Qed.

Lemma K_mono_le E n m : (n <= m)%nat ->
  (forall t, mle (k_ev (K E n) t) (k_ev (K E m) t)) /\
  (forall d t, mle (k_hd (K E n) d t) (k_hd (K E m) d t)) /\
  (forall d b, mle (k_inst (K E n) d b) (k_inst (K E m) d b)) /\
  (forall a l i, mle (k_ext (K E n) a l i) (k_ext (K E m) a l i)).
Proof.
  intros H. induction H as [|m H (IH1 & IH2 & IH3 & IH4)].
  - repeat split; intros; apply mle_refl.
  - destruct (K_mono E m) as (J1 & J2 & J3 & J4).
    repeat split; intros; eapply mle_trans; eauto.
Qed.

Lemma ev_mono E n m t s r : (n <= m)%nat -> k_ev (K E n) t s = r -> r <> Fuel -> k_ev (K E m) t s = r.
Proof.
  intros Hle H Hr. destruct (K_mono_le E n m Hle) as (J & _). subst r. apply J, Hr.
Qed.

Lemma stmts_mono E n m t s r : (n <= m)%nat ->
  evaluate_stmts E (K E n) t s = r -> r <> Fuel -> evaluate_stmts E (K E m) t s = r.
Proof.
  intros Hle H Hr. destruct (K_mono_le E n m Hle) as (J1 & J2 & J3 & J4).
  subst r. apply mle_evaluate_stmts; auto.
Qed.
