(** Proofs about variables declared extern. *)
From Coq Require Import ZArith List String Bool Lia.
From Verif Require Import CInt Tree State Eval SpecResolver StepsFacts SpecRun SpecTypes SpecTypesFacts SpecExpr SpecNames SpecVars SpecCalls SpecStatic
  SpecPtr SpecEnum SpecExtern MonoFacts RunRules RunFacts NameFacts ExprFacts ControlFacts VarFacts StaticFacts PtrFacts EnumFacts.
Import ListNotations.
Local Open Scope Z_scope.
Local Open Scope list_scope.
Local Open Scope m_scope.

Section Extern.
Variable E : env.

Lemma extern_unfold k n x t s : handle_extern_decl E k t (stars n (T_IDENTIFIER x)) s =
  (prev <- resolve_identifier_current (T_IDENTIFIER x) ;;
   match prev with
   | NULL => addr <- resolve_symbol E (T_IDENTIFIER x) ;; tick E ;; map_identifier E (T_IDENTIFIER x) (live_var (pointer_to n t) addr) ;; ret (T_IDENTIFIER x)
   | T_LIVE_VAR NULL _ _ _ => ub
   | T_LIVE_VAR ty _ _ _ => s <- get ;; if is_NULL (pointer_to n t) then ub else if same_type_tag s ty (pointer_to n t) then ret (T_IDENTIFIER x) else die
   | _ => ub
   end) (after_tick E s).
Proof.
  unfold handle_extern_decl. rewrite (bind_eq _ _ _ _ _ _ _ (tick_eq E s)).
  assert (R : resolve_ptr_type (stars n (T_IDENTIFIER x)) t = (T_IDENTIFIER x, pointer_to n t)).
  { revert t. induction n as [|n IH]; intros t; cbn [stars resolve_ptr_type pointer_to]; [reflexivity|]. rewrite IH. f_equal.
    clear. revert t. induction n; intros t; cbn; congruence. }
  rewrite R. reflexivity.
Qed.

Lemma extern_new k n x t s c cs : stack s = c :: cs -> ~ In x (map fst (c_idmap c)) -> e_dlsym E x <> 0 ->
  exists s', handle_extern_decl E k t (stars n (T_IDENTIFIER x)) s = Ok (T_IDENTIFIER x) s' /\
    names_added E s [(x, T_LIVE_VAR (pointer_to n t) (e_dlsym E x) false 0)] s'.
Proof.
  intros Hs Hx Hd. set (s1 := after_tick E s). set (s2 := after_tick E s1).
  assert (Hs2 : stack s2 = c :: cs) by exact Hs.
  destruct (map_new E x (live_var (pointer_to n t) (e_dlsym E x)) s2 c cs Hs2 Hx) as [H1 A].
  eexists. split; [|eapply added_gc_l; [apply gc_only_tick|eapply added_gc_l; [apply gc_only_tick|exact A]]].
  rewrite extern_unfold. fold s1.
  assert (Hr : resolve_identifier_current (T_IDENTIFIER x) s1 = Ok NULL s1).
  { unfold resolve_identifier_current, top. unfold bind. change (stack s1) with (stack s). rewrite Hs. cbn. rewrite (resolve_not_in x _ Hx). reflexivity. }
  rewrite (bind_eq _ _ _ _ _ _ _ Hr). unfold resolve_symbol. apply Z.eqb_neq in Hd. rewrite Hd. unfold ret at 1. unfold bind at 1.
  rewrite (bind_eq _ _ _ _ _ _ _ (tick_eq E s1)). fold s2. rewrite (bind_eq _ _ _ _ _ _ _ H1). reflexivity.
Qed.

Lemma extern_unknown k n x t s c cs : stack s = c :: cs -> ~ In x (map fst (c_idmap c)) -> e_dlsym E x = 0 ->
  handle_extern_decl E k t (stars n (T_IDENTIFIER x)) s = Die (after_tick E s).
Proof.
  intros Hs Hx Hd. rewrite extern_unfold. set (s1 := after_tick E s).
  assert (Hr : resolve_identifier_current (T_IDENTIFIER x) s1 = Ok NULL s1).
  { unfold resolve_identifier_current, top. unfold bind. change (stack s1) with (stack s). rewrite Hs. cbn. rewrite (resolve_not_in x _ Hx). reflexivity. }
  rewrite (bind_eq _ _ _ _ _ _ _ Hr). unfold resolve_symbol. rewrite Hd. reflexivity.
Qed.

Lemma pointer_scalar n t : scalar t -> scalar (pointer_to n t).
Proof. destruct n; [auto|exact (fun _ => I)]. Qed.
Lemma tag_kind s a b : scalar a -> scalar b -> same_type_tag s a b = true <-> same_kind a b.
Proof.
  intros Ha Hb. unfold same_kind. destruct a; try contradiction Ha; destruct b; try contradiction Hb; cbn -[is_T_DECL_COMPOUND is_E_INCOMP_TYPE].
  all: try (split; [intros H; discriminate H|intros [H|(p & q & H & H')]; congruence]).
  - split; auto.
  - split; [destruct c, c0; discriminate || auto|]. intros [[= ->]|(p & q & H & _)]; [destruct c0; reflexivity|discriminate H].
  - split; [intros _; right; eauto|reflexivity].
Qed.

Lemma extern_again k n x t s c cs ty a arr m : stack s = c :: cs -> resolve_id x (c_idmap c) = T_LIVE_VAR ty a arr m -> scalar t -> scalar ty ->
  (same_kind ty (pointer_to n t) -> handle_extern_decl E k t (stars n (T_IDENTIFIER x)) s = Ok (T_IDENTIFIER x) (after_tick E s)) /\
  (~ same_kind ty (pointer_to n t) -> handle_extern_decl E k t (stars n (T_IDENTIFIER x)) s = Die (after_tick E s)).
Proof.
  intros Hs Hx Ht Hty. rewrite extern_unfold. set (s1 := after_tick E s).
  assert (Hr : resolve_identifier_current (T_IDENTIFIER x) s1 = Ok (T_LIVE_VAR ty a arr m) s1).
  { unfold resolve_identifier_current, top. unfold bind. change (stack s1) with (stack s). rewrite Hs. cbn. rewrite Hx. reflexivity. }
  rewrite (bind_eq _ _ _ _ _ _ _ Hr). pose proof (pointer_scalar n t Ht) as Hp. pose proof (tag_kind s1 ty (pointer_to n t) Hty Hp) as K.
  assert (Nn : is_NULL (pointer_to n t) = false) by (destruct (pointer_to n t); reflexivity || contradiction Hp).
  assert (G : (match ty with NULL => ub | _ => s <- get;; (if is_NULL (pointer_to n t) then ub else if same_type_tag s ty (pointer_to n t) then ret (T_IDENTIFIER x) else die) end) s1 =
    if same_type_tag s1 ty (pointer_to n t) then Ok (T_IDENTIFIER x) s1 else Die s1).
  { destruct ty; try contradiction Hty; unfold bind, get; rewrite Nn; destruct (same_type_tag _ _ _); reflexivity. }
  destruct ty; try contradiction Hty; cbv beta iota in G |- *; rewrite G; (split; intros Hk; [rewrite (proj2 K Hk); reflexivity|]);
    destruct (same_type_tag _ _ _); try reflexivity; destruct Hk; apply K; reflexivity.
Qed.

Lemma extern_list k t : forall ds r0 s c cs, stack s = c :: cs -> NoDup (map snd ds) ->
  (forall x, In x (map snd ds) -> ~ In x (map fst (c_idmap c)) /\ e_dlsym E x <> 0) ->
  exists s', foldM (fun _ d => handle_extern_decl E k t d) r0 (map (fun d => stars (fst d) (T_IDENTIFIER (snd d))) ds) s =
      Ok (last (map (fun d => T_IDENTIFIER (snd d)) ds) r0) s' /\ names_added E s (extern_names E t ds) s'.
Proof.
  induction ds as [|[n x] ds IH]; intros r0 s c cs Hs Hn Hx.
  - exists s. split; [reflexivity|]. eapply added_refl; eauto.
  - cbn [map snd] in Hn, Hx. inversion Hn as [|? ? Hn1 Hn2]; subst.
    destruct (Hx x (or_introl eq_refl)) as [Hx1 Hx2].
    destruct (extern_new k n x t s c cs Hs Hx1 Hx2) as (s1 & H1 & A).
    pose proof A as ((c0 & cs0 & Q1 & Q2) & _). rewrite Hs in Q1. injection Q1 as <- <-.
    destruct (IH (T_IDENTIFIER x) _ _ _ Q2 Hn2) as (s' & H & A2).
    { intros y Hy. split; [|exact (proj2 (Hx y (or_intror Hy)))]. cbn [scope_names c_idmap]. rewrite map_app, in_app_iff. intros [J|[J|[]]]; [exact (proj1 (Hx y (or_intror Hy)) J)|].
      cbn in J. subst y. auto. }
    exists s'. split; [|exact (added_trans E _ _ _ _ _ A A2)].
    cbn [map foldM fst snd]. rewrite (bind_eq _ _ _ _ _ _ _ H1). rewrite H. rewrite last_shift. reflexivity.
Qed.

Lemma extern_runs l specs t ds s r : zfind l (statics s) = None -> base_type s specs t -> In (T_SPEC T_EXTERN) specs -> ~ In (T_SPEC T_TYPEDEF) specs ->
  r <> Fuel -> foldM (fun _ d => handle_extern_decl E (K E 1) t d) NULL ds (after_tick E s) = r -> runs E s (T_DECL l (CHAIN_HEAD specs) (CHAIN_HEAD ds)) r.
Proof.
  intros Hl Hb Ht Hn Hf H. split; [exact Hf|]. exists 2%nat. unfold evaluate_expr.
  change (evaluate_1 E (K E 1) (T_DECL l (CHAIN_HEAD specs) (CHAIN_HEAD ds)) s = r).
  cbn [evaluate_1]. rewrite Hl, (decl_known E 0 l specs _ t s Hb). unfold decl_rest.
  destruct (chain_has T_TYPEDEF (CHAIN_HEAD specs)) eqn:C; [apply self_class in C; [contradiction|cbn; tauto]|].
  rewrite (proj2 (self_class T_EXTERN specs (or_intror (or_introl eq_refl))) Ht). exact H.
Qed.

Lemma extern_declaration l specs t ds s c cs : zfind l (statics s) = None -> base_type s specs t -> In (T_SPEC T_EXTERN) specs -> ~ In (T_SPEC T_TYPEDEF) specs ->
  stack s = c :: cs -> NoDup (map snd ds) -> (forall x, In x (map snd ds) -> ~ In x (map fst (c_idmap c)) /\ e_dlsym E x <> 0) ->
  exists s', runs E s (T_DECL l (CHAIN_HEAD specs) (CHAIN_HEAD (map (fun d => stars (fst d) (T_IDENTIFIER (snd d))) ds)))
      (Ok (last (map (fun d => T_IDENTIFIER (snd d)) ds) NULL) s') /\ names_added E s (extern_names E t ds) s' /\
    forall n x, In (n, x) ds -> means s' x (T_LIVE_VAR (pointer_to n t) (e_dlsym E x) false 0).
Proof.
  intros Hl Hb Ht Hny Hs Hn Hx.
  destruct (extern_list (K E 1) t ds NULL (after_tick E s) c cs Hs Hn Hx) as (s' & H & A0).
  assert (A : names_added E s (extern_names E t ds) s') by (eapply added_gc_l; [apply gc_only_tick|exact A0]).
  exists s'. split; [|split; [exact A|]].
  - eapply extern_runs; eauto. discriminate.
  - intros n x Hi. apply (added_means E s _ s' c cs x _ Hs A).
    + unfold extern_names. rewrite map_map. exact Hn.
    + unfold extern_names. apply in_map_iff. exists (n, x). auto.
    + discriminate.
    + apply Hx. apply in_map_iff. exists (n, x). auto.
Qed.

Lemma extern_dies l specs t n x s c cs : zfind l (statics s) = None -> base_type s specs t -> In (T_SPEC T_EXTERN) specs -> ~ In (T_SPEC T_TYPEDEF) specs ->
  stack s = c :: cs -> ~ In x (map fst (c_idmap c)) -> e_dlsym E x = 0 ->
  exists s', runs E s (T_DECL l (CHAIN_HEAD specs) (CHAIN_HEAD [stars n (T_IDENTIFIER x)])) (Die s') /\ only_gc E s s'.
Proof.
  intros Hl Hb Ht Hny Hs Hx Hd. exists (after_tick E (after_tick E s)). split; [|eapply gc_only_trans; apply gc_only_tick].
  eapply extern_runs; eauto; [discriminate|]. cbn [foldM]. unfold bind. rewrite (extern_unknown (K E 1) n x t (after_tick E s) c cs Hs Hx Hd). reflexivity.
Qed.

Lemma extern_redeclared l specs t n x s c cs ty a arr m : zfind l (statics s) = None -> base_type s specs t -> In (T_SPEC T_EXTERN) specs -> ~ In (T_SPEC T_TYPEDEF) specs ->
  stack s = c :: cs -> resolve_id x (c_idmap c) = T_LIVE_VAR ty a arr m -> scalar t -> scalar ty ->
  let d := T_DECL l (CHAIN_HEAD specs) (CHAIN_HEAD [stars n (T_IDENTIFIER x)]) in
  exists s', only_gc E s s' /\ (same_kind ty (pointer_to n t) -> runs E s d (Ok (T_IDENTIFIER x) s')) /\ (~ same_kind ty (pointer_to n t) -> runs E s d (Die s')).
Proof.
  intros Hl Hb Ht Hny Hs Hx Hsc Hty d. exists (after_tick E (after_tick E s)). split; [eapply gc_only_trans; apply gc_only_tick|].
  destruct (extern_again (K E 1) n x t (after_tick E s) c cs ty a arr m Hs Hx Hsc Hty) as [H1 H2].
  split; intros Hk; (eapply extern_runs; eauto; [discriminate|]); cbn [foldM]; unfold bind; [rewrite (H1 Hk)|rewrite (H2 Hk)]; reflexivity.
Qed.
End Extern.
