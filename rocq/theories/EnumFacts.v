(** Proofs about enumerations and typedefs. *)
From Coq Require Import ZArith List String Bool Lia.
From Verif Require Import CInt Tree State Eval SpecResolver StepsFacts SpecRun SpecTypes SpecTypesFacts SpecExpr SpecNames SpecVars SpecCalls SpecStatic
  SpecPtr SpecEnum MonoFacts RunRules RunFacts NameFacts ExprFacts ControlFacts VarFacts StaticFacts PtrFacts.
Import ListNotations.
Local Open Scope Z_scope.
Local Open Scope list_scope.

Section Enum.
Variable E : env.

Lemma added_gc_l s s1 m s2 : only_gc E s s1 -> names_added E s1 m s2 -> names_added E s m s2.
Proof.
  intros [[] [G _]] ((c & cs & A1 & A2) & A3 & A4 & A5).
  split; [exists c, cs; split; congruence|]. split; [congruence|]. split; [|auto].
  unfold same_rest in *. intuition congruence.
Qed.
Lemma added_gc_r s m s1 s2 : names_added E s m s1 -> only_gc E s1 s2 -> names_added E s m s2.
Proof.
  intros ((c & cs & A1 & A2) & A3 & A4 & A5) [[] [G _]].
  split; [exists c, cs; split; congruence|]. split; [congruence|]. split; [|auto].
  unfold same_rest in *. intuition congruence.
Qed.

Lemma added_lookup s m s' x : names_added E s m s' -> ~ In x (map fst m) -> lookup s' x = lookup s x.
Proof.
  intros ((c & cs & H1 & H2) & _ & R & _) Hx. unfold lookup, scope_ctxs. destruct R as (R & _). rewrite R, H1, H2.
  cbn [app map]. rewrite !resolve_maps_cons. cbn [scope_names c_idmap]. rewrite resolve_id_app_other by exact Hx. reflexivity.
Qed.

Lemma added_number s m s' t z : names_added E s m s' -> number E s t z -> number E s' t z.
Proof.
  intros (_ & M & _ & S) H. apply (kept_number E s s'); auto. split; auto. intros a _. congruence.
Qed.

Lemma resolve_in m : forall m0 x v, NoDup (map fst m) -> In (x, v) m -> ~ In x (map fst m0) -> resolve_id x (m0 ++ m) = v.
Proof.
  induction m as [|[y w] m IH]; intros m0 x v Hn Hi Hx; [destruct Hi|].
  cbn [map fst] in Hn. inversion Hn as [|? ? H1 H2]; subst. destruct Hi as [Hi|Hi].
  - injection Hi as -> ->. clear - Hx. induction m0 as [|[y w] m0 IH]; cbn; [rewrite String.eqb_refl; reflexivity|].
    cbn in Hx. destruct (String.eqb_spec y x); [exfalso; auto|]. apply IH. tauto.
  - replace (m0 ++ (y, w) :: m) with ((m0 ++ [(y, w)]) ++ m) by (rewrite <- app_assoc; reflexivity). apply IH; auto.
    rewrite map_app, in_app_iff. cbn. intros [H|[H|[]]]; [auto|]. subst y. apply H1. apply (in_map fst) in Hi. exact Hi.
Qed.

Lemma added_means s m s' c cs x v : stack s = c :: cs -> names_added E s m s' -> NoDup (map fst m) -> In (x, v) m -> v <> NULL ->
  ~ In x (map fst (c_idmap c)) -> means s' x v.
Proof.
  intros Hs ((c0 & cs0 & H1 & H2) & _) Hn Hi Hv Hx. rewrite Hs in H1. injection H1 as <- <-.
  exists [], (scope_names c m). unfold visible. rewrite H2. eexists. split; [reflexivity|]. split; [intros d []|].
  split; [exact Hv|]. apply entry_resolve; [exact Hv|]. cbn [scope_names c_idmap]. apply resolve_in; auto.
Qed.

Lemma map_new x v s c cs : stack s = c :: cs -> ~ In x (map fst (c_idmap c)) ->
  map_identifier E (T_IDENTIFIER x) v s = Ok tt (mapped E x v s) /\ names_added E s [(x, v)] (mapped E x v s).
Proof.
  intros Hs Hx. split; [|eapply mapped_added; eauto].
  rewrite (map_identifier_cases E x v s c cs Hs), (resolve_not_in x _ Hx). reflexivity.
Qed.

(** One enumerator. *)
Lemma enum_next n x s c cs : stack s = c :: cs -> ~ In x (map fst (c_idmap c)) ->
  exists s', lim E (fun k => enum_member E k n (T_IDENTIFIER x)) s (Ok ((n + 1) mod 2 ^ 32) s') /\
    names_added E s [(x, T_INTEGER n)] s'.
Proof.
  intros Hs Hx. assert (Hs1 : stack (after_tick E s) = c :: cs) by exact Hs.
  destruct (map_new x (T_INTEGER n) (after_tick E s) c cs Hs1 Hx) as [H1 H2].
  exists (mapped E x (T_INTEGER n) (after_tick E s)). split.
  - apply lim_const. intros k. unfold enum_member. rewrite (bind_eq _ _ _ _ _ _ _ (tick_eq E s)).
    unfold bind at 1, ret at 1. rewrite (bind_eq _ _ _ _ _ _ _ H1). reflexivity.
  - eapply added_gc_l; [apply gc_only_tick|exact H2].
Qed.

Lemma get_ui_32 v : mpz_get_ui v mod 2 ^ 32 = Z.abs v mod 2 ^ 32.
Proof. unfold mpz_get_ui. symmetry. apply Znumtheory.Zmod_div_mod; [lia|lia|]. exists (2 ^ 32). reflexivity. Qed.

Lemma enum_value n x l e rho v s c cs : stack s = c :: cs -> ~ In x (map fst (c_idmap c)) -> plain s l (T_IDENTIFIER x) ->
  (forall y, mentions e y -> number E s (lookup s y) (rho y)) -> denote rho e = Some v ->
  exists s', lim E (fun k => enum_member E k n (T_ASSIGN l (T_IDENTIFIER x) (syntax e))) s (Ok ((Z.abs v mod 2 ^ 32 + 1) mod 2 ^ 32) s') /\
    names_added E s [(x, T_INTEGER (Z.abs v mod 2 ^ 32))] s'.
Proof.
  intros Hs Hx Hp Hr Hd.
  assert (G0 : only_gc E s (after_tick E s)) by apply gc_only_tick.
  assert (Hr1 : forall y, mentions e y -> number E (after_tick E s) (lookup (after_tick E s) y) (rho y)).
  { intros y Hy. rewrite (lookup_gc _ _ y (proj1 G0)). eapply kept_number; [apply kept_gc, G0|auto]. }
  destruct (expr_correct E rho e (after_tick E s) Hr1) as (s1 & G1 & H). rewrite Hd in H. destruct H as (r & H & N).
  destruct (comparable_number E _ _ _ _ _ H N) as (s2 & H2 & G2).
  assert (G : only_gc E s s2) by (eapply gc_only_trans; [exact G0|]; eapply gc_only_trans; eauto).
  assert (Hs2 : stack s2 = c :: cs) by (rewrite (sg_stack _ _ (proj1 G)); exact Hs).
  set (w := Z.abs v mod 2 ^ 32).
  destruct (map_new x (T_INTEGER w) s2 c cs Hs2 Hx) as [H3 H4].
  exists (mapped E x (T_INTEGER w) s2). split; [|eapply added_gc_l; eauto].
  unfold enum_member. eapply lim_bind; [apply lim_const; intros; apply tick_eq|]. cbn beta.
  apply (lim_bind E _ _ _ _ (after_tick E s) (T_IDENTIFIER x, w) s2).
  - eapply lim_bind; [exact H2|]. apply lim_const. intros k. cbn beta. unfold bind, get, ret. rewrite get_ui_32. fold w.
    unfold assign_lhs. rewrite (sg_ov_asn _ _ (proj1 G)). destruct Hp as [-> | ->]; reflexivity.
  - apply lim_const. intros k. cbn beta iota. rewrite (bind_eq _ _ _ _ _ _ _ H3). reflexivity.
Qed.

Lemma names_known_added s m s' rho before : names_added E s m s' -> forall is before',
  (forall y, In y before -> In y before') -> (forall y, In y (map fst m) -> In y before') ->
  forall rho', (forall y, ~ In y (map fst m) -> rho' y = rho y) ->
  names_known E s rho before is -> names_known E s' rho' before' is.
Proof.
  intros A is. revert before. induction is as [|[x o] is IH]; intros before before' Hb Hm rho' Hrho H; cbn in *; auto.
  destruct H as [H1 H2]. split.
  - destruct o as [[l e]|]; auto. destruct H1 as [H1 H3]. split.
    + destruct A as (_ & _ & (_ & _ & _ & R & _) & _). unfold plain. rewrite R. exact H1.
    + intros y Hy. destruct (in_dec String.string_dec y (map fst m)) as [Hi|Hi]; [auto|].
      destruct (H3 y Hy) as [H|H]; [auto|]. right. rewrite (added_lookup _ _ _ _ A Hi), Hrho by exact Hi. eapply added_number; eauto.
  - apply (IH (x :: before)); auto; [intros y [->|Hy]; cbn; auto|intros y Hy; cbn; auto].
Qed.

Lemma enum_list : forall is rho n r before s c cs, enumerated rho n is r -> stack s = c :: cs ->
  NoDup (map fst is) -> (forall x, In x (map fst is) -> ~ In x (map fst (c_idmap c))) ->
  (forall y, In y before -> number E s (lookup s y) (rho y)) -> names_known E s rho before is ->
  exists n' s', lim E (fun k => foldM (enum_member E k) n (map enumerator_tree is)) s (Ok n' s') /\
    names_added E s (map (fun p => (fst p, T_INTEGER (snd p))) r) s'.
Proof.
  induction is as [|[x o] is IH]; intros rho n r before s c cs He Hs Hn Hx Hb Hk.
  - inversion He; subst. exists n, s. split; [apply lim_const; reflexivity|]. eapply added_refl; eauto.
  - cbn [map fst] in Hn, Hx. inversion Hn as [|? ? Hn1 Hn2]; subst.
    assert (Hxc : ~ In x (map fst (c_idmap c))) by (apply Hx; left; reflexivity).
    assert (Hgo : forall w n1 s1 r1, lim E (fun k => enum_member E k n (enumerator_tree (x, o))) s (Ok n1 s1) ->
      names_added E s [(x, T_INTEGER w)] s1 -> enumerated (with_var rho x w) n1 is r1 ->
      exists n' s', lim E (fun k => foldM (enum_member E k) n (map enumerator_tree ((x, o) :: is))) s (Ok n' s') /\
        names_added E s (map (fun p => (fst p, T_INTEGER (snd p))) ((x, w) :: r1)) s').
    { intros w n1 s1 r1 H1 A He1. pose proof A as ((c0 & cs0 & Q1 & Q2) & _). rewrite Hs in Q1. injection Q1 as <- <-.
      destruct (IH (with_var rho x w) n1 r1 (x :: before) s1 (scope_names c [(x, T_INTEGER w)]) cs He1 Q2 Hn2) as (n' & s' & H2 & A2).
      - intros y Hy. cbn [scope_names c_idmap]. rewrite map_app, in_app_iff. intros [H|[H|[]]]; [exact (Hx y (or_intror Hy) H)|].
        cbn in H. subst y. auto.
      - intros y Hy. destruct (String.string_dec y x) as [->|Hne].
        + unfold with_var. rewrite String.eqb_refl. 
          assert (Hl : lookup s1 x = T_INTEGER w); [|rewrite Hl; constructor].
          apply means_lookup; [discriminate|]. apply (added_means s _ s1 c cs x (T_INTEGER w) Hs A); auto.
          * constructor; [intros []|constructor]. * left; reflexivity. * discriminate.
        + assert (Hw : with_var rho x w y = rho y) by (unfold with_var; destruct (String.eqb_spec y x); congruence).
          rewrite Hw. rewrite (added_lookup _ _ _ _ A); [|cbn; intros [H|[]]; congruence].
          eapply added_number; [exact A|]. apply Hb. destruct Hy; [congruence|auto].
      - destruct Hk as [_ Hk]. eapply (names_known_added s _ s1 rho (x :: before) A); [auto| | |exact Hk].
        + intros y [<-|[]]. left; reflexivity.
        + intros y Hy. unfold with_var. destruct (String.eqb_spec y x); [exfalso; apply Hy; left; auto|reflexivity].
      - exists n', s'. split; [|exact (added_trans E _ _ _ _ _ A A2)].
        cbn [map foldM]. eapply lim_bind; [exact H1|exact H2]. }
    inversion He; subst.
    + destruct (enum_next n x s c cs Hs Hxc) as (s1 & H1 & A). eapply Hgo; eauto.
    + destruct Hk as [[Hk1 Hk2] _].
      destruct (enum_value n x l e rho v s c cs Hs Hxc Hk1) as (s1 & H1 & A); auto.
      { intros y Hy. destruct (Hk2 y Hy); auto. }
      eapply Hgo; eauto.
Qed.

Lemma enumeration tag is rho r s c cs : enumerated rho 0 is r -> stack s = c :: cs -> is <> [] ->
  NoDup (map fst (enum_tag tag) ++ map fst is) ->
  (forall x, In x (map fst (enum_tag tag) ++ map fst is) -> ~ In x (map fst (c_idmap c))) -> names_known E s rho [] is ->
  (forall t, tag = Some t -> Forall (fun i => match snd i with Some (_, e) => ~ mentions e t | None => True end) is) ->
  exists s', lim E (fun k => eval_enumerator E k (enum_tag_tree tag) (CHAIN_HEAD (map enumerator_tree is))) s (Ok (D_T D_T_UINT) s') /\
    names_added E s (enum_names tag r) s'.
Proof.
  intros He Hs Hne Hn Hx Hk Ht. unfold eval_enumerator.
  assert (Hs1 : stack (after_tick E s) = c :: cs) by exact Hs.
  assert (Hg : exists s1, lim E (fun _ => match enum_tag_tree tag with NULL => ret tt | _ => map_identifier E (enum_tag_tree tag) (D_T D_T_UINT) end)
      (after_tick E s) (Ok tt s1) /\ names_added E s (enum_tag tag) s1).
  { destruct tag as [t|]; cbn [enum_tag_tree enum_tag].
    - destruct (map_new t (D_T D_T_UINT) (after_tick E s) c cs Hs1 (Hx t (or_introl eq_refl))) as [H1 H2].
      exists (mapped E t (D_T D_T_UINT) (after_tick E s)). split; [apply lim_const; intros; exact H1|].
      eapply added_gc_l; [apply gc_only_tick|exact H2].
    - exists (after_tick E s). split; [apply lim_const; reflexivity|]. eapply added_gc_l; [apply gc_only_tick|]. eapply added_refl; eauto. }
  destruct Hg as (s1 & H1 & A1). pose proof A1 as ((c0 & cs0 & Q1 & Q2) & _). rewrite Hs in Q1. injection Q1 as <- <-.
  assert (Hk1 : names_known E s1 rho [] is).
  { clear - A1 Hk Ht.
    assert (forall before before', (forall y, In y before -> In y (map fst (enum_tag tag)) \/ In y before') ->
      names_known E s rho before is -> (forall t, tag = Some t -> Forall (fun i => match snd i with Some (_, e) => ~ mentions e t | None => True end) is) ->
      names_known E s1 rho before' is).
    { clear Hk Ht. induction is as [|[x o] is IH]; intros before before' Hb Hk Ht; cbn in *; auto. destruct Hk as [K1 K2]. split.
      - destruct o as [[l e]|]; auto. destruct K1 as [K1 K3]. split.
        + destruct A1 as (_ & _ & (_ & _ & _ & R & _) & _). unfold plain. rewrite R. exact K1.
        + intros y Hy. assert (Hyt : ~ In y (map fst (enum_tag tag))).
          { destruct tag as [t|]; [|intros []]. intros [H|[]]. cbn in H. subst y. specialize (Ht t eq_refl). inversion Ht. auto. }
          destruct (K3 y Hy) as [H|H]; [destruct (Hb y H); auto; contradiction|]. right.
          rewrite (added_lookup _ _ _ _ A1 Hyt). eapply added_number; eauto.
      - apply (IH (x :: before)); auto.
        + intros y [->|Hy]; cbn; auto. destruct (Hb y Hy); auto.
        + intros t Hte. specialize (Ht t Hte). inversion Ht; auto. }
    exact (H [] [] ltac:(intros y []) Hk Ht). }
  assert (Hn2 : NoDup (map fst is)) by (destruct tag as [t|]; [cbn in Hn; inversion Hn; assumption|exact Hn]).
  destruct (enum_list is rho 0 r [] s1 (scope_names c (enum_tag tag)) cs He Q2 Hn2) as (n' & s' & H2 & A2).
  - intros y Hy. cbn [scope_names c_idmap]. rewrite map_app, in_app_iff. intros [H|H].
    + apply (Hx y); auto. apply in_or_app; auto.
    + destruct tag as [t|]; [|destruct H]. destruct H as [H|[]]. cbn in H. subst y. cbn in Hn. inversion Hn; auto.
  - intros y [].
  - exact Hk1.
  - exists s'. split; [|exact (added_trans E _ _ _ _ _ A1 A2)].
    eapply lim_bind; [apply lim_const; intros; apply tick_eq|]. cbn beta iota.
    eapply lim_bind; [exact H1|]. cbn beta. eapply lim_bind; [exact H2|]. apply lim_const. reflexivity.
Qed.

(** The declaration that consists of an enumeration. *)
Lemma enum_declaration l sc tag is rho r s c cs : zfind l (statics s) = None -> sane_prefix sc -> no_storage_class sc ->
  enumerated rho 0 is r -> stack s = c :: cs -> is <> [] ->
  NoDup (map fst (enum_tag tag) ++ map fst is) ->
  (forall x, In x (map fst (enum_tag tag) ++ map fst is) -> ~ In x (map fst (c_idmap c))) -> names_known E s rho [] is ->
  (forall t, tag = Some t -> Forall (fun i => match snd i with Some (_, e) => ~ mentions e t | None => True end) is) ->
  exists s', runs E s (T_DECL l (CHAIN_HEAD (map T_SPEC sc ++ [T_ENUMERATOR (enum_tag_tree tag) (CHAIN_HEAD (map enumerator_tree is))])) NULL)
      (Ok NULL s') /\ names_added E s (enum_names tag r) s'.
Proof.
  intros Hl Hsa Hsc He Hs Hne Hn Hx Hk Ht.
  assert (G0 : only_gc E s (after_tick E s)) by apply gc_only_tick.
  assert (Hk1 : forall before is, names_known E s rho before is -> names_known E (after_tick E s) rho before is).
  { clear - G0. intros before is. revert before. induction is as [|[x o] is IH]; intros before H; cbn [names_known] in *; auto.
    destruct H as [H1 H2]. split; auto. destruct o as [[l e]|]; auto. destruct H1 as [H1 H3]. split; [exact H1|].
    intros y Hy. destruct (H3 y Hy); auto. right. rewrite (lookup_gc _ _ y (proj1 G0)). eapply kept_number; [apply kept_gc, G0|auto]. }
  destruct (enumeration tag is rho r (after_tick E s) c cs He Hs Hne Hn Hx (Hk1 _ _ Hk) Ht) as (s' & H & A).
  exists s'. split; [|eapply added_gc_l; eauto]. apply lim_runs; [discriminate|].
  set (sp := T_ENUMERATOR _ _) in *. set (specs := CHAIN_HEAD (map T_SPEC sc ++ [sp])).
  assert (Hch : forall x, In x [T_TYPEDEF; T_EXTERN; T_STATIC] -> chain_has x specs = false).
  { intros x Hi. unfold chain_has, specs. cbn [chain_elems]. rewrite existsb_app. cbn [existsb].
    destruct (not_storage_class sc Hsc) as (Q1 & Q2 & Q3). unfold chain_has in Q1, Q2, Q3. cbn [chain_elems] in Q1, Q2, Q3.
    destruct Hi as [<-|[<-|[<-|[]]]]; rewrite ?Q1, ?Q2, ?Q3; reflexivity. }
  cbn [evaluate_1].
  apply (lim_after E _ _ (fun k => bind (k_ev k sp) (fun _ => ret NULL)) s (after_tick E s)).
  - intros k. rewrite Hl. unfold eval_decl, resolve_specs. unfold bind at 1.
    rewrite (bind_eq _ _ _ _ _ _ _ (tick_eq E s)).
    change (map T_SPEC sc ++ [sp]) with (map T_SPEC sc ++ sp :: []) in specs.
    rewrite (proj1 (resolve_self sc sp [] (self_enum _ _)) Hsa : resolve_decl_specs_to_type specs = SpecOk sp).
    unfold ret at 1. unfold bind at 1, get. cbn [is_NULL].
    change (view_comp (after_tick E s) sp) with (@None comp). cbn iota.
    change (is_T_IDENTIFIER sp || is_T_DECL_COMPOUND (after_tick E s) sp || is_T_ENUMERATOR sp)%bool with true. cbn iota.
    rewrite !Hch by (cbn; tauto). reflexivity.
  - eapply lim_bind; [|apply lim_const; reflexivity]. apply lim_eval1. exact H.
Qed.

(** ** Typedefs *)

Lemma typedef_one n x t s c cs : stack s = c :: cs -> ~ In x (map fst (c_idmap c)) ->
  map_typedef E (stars n (T_IDENTIFIER x)) t s = Ok (T_IDENTIFIER x) (mapped E x (pointer_to n t) s).
Proof.
  intros Hs Hx. assert (Hp : forall n t, pointer_to n (D_T_PTR t) = D_T_PTR (pointer_to n t)).
  { clear. induction n; intros t; cbn; congruence. }
  revert t. induction n as [|n IH]; intros t; cbn [stars map_typedef pointer_to].
  - destruct (map_new x t s c cs Hs Hx) as [H1 _]. rewrite (bind_eq _ _ _ _ _ _ _ H1). reflexivity.
  - rewrite IH, Hp. reflexivity.
Qed.

Lemma typedef_list t : forall ds r0 s c cs, stack s = c :: cs -> NoDup (map snd ds) ->
  (forall x, In x (map snd ds) -> ~ In x (map fst (c_idmap c))) ->
  exists s', foldM (fun _ d => map_typedef E d t) r0 (map (fun d => stars (fst d) (T_IDENTIFIER (snd d))) ds) s =
      Ok (last (map (fun d => T_IDENTIFIER (snd d)) ds) r0) s' /\ names_added E s (typedef_names t ds) s'.
Proof.
  induction ds as [|[n x] ds IH]; intros r0 s c cs Hs Hn Hx.
  - exists s. split; [reflexivity|]. eapply added_refl; eauto.
  - cbn [map snd] in Hn, Hx. inversion Hn as [|? ? Hn1 Hn2]; subst.
    assert (A : names_added E s [(x, pointer_to n t)] (mapped E x (pointer_to n t) s)) by (eapply mapped_added; eauto).
    pose proof A as ((c0 & cs0 & Q1 & Q2) & _). rewrite Hs in Q1. injection Q1 as <- <-.
    destruct (IH (T_IDENTIFIER x) _ _ _ Q2 Hn2) as (s' & H & A2).
    { intros y Hy. cbn [scope_names c_idmap]. rewrite map_app, in_app_iff. intros [H|[H|[]]]; [exact (Hx y (or_intror Hy) H)|].
      cbn in H. subst y. auto. }
    exists s'. split; [|exact (added_trans E _ _ _ _ _ A A2)].
    cbn [map foldM fst snd]. rewrite (bind_eq _ _ _ _ _ _ _ (typedef_one n x t s c cs Hs (Hx x (or_introl eq_refl)))).
    rewrite H. rewrite last_shift. reflexivity.
Qed.

(** The type of the specifiers, and the rest of the declaration. *)
Lemma self_class x sp : In x [T_TYPEDEF; T_EXTERN; T_STATIC] -> chain_has x (CHAIN_HEAD sp) = true <-> In (T_SPEC x) sp.
Proof.
  intros Hx. unfold chain_has. cbn [chain_elems]. rewrite existsb_exists. split.
  - intros (t & Ht & H). destruct t; try discriminate H. destruct Hx as [<-|[<-|[<-|[]]]]; destruct sp0; try discriminate H; exact Ht.
  - intros H. exists (T_SPEC x). split; [exact H|]. destruct Hx as [<-|[<-|[<-|[]]]]; reflexivity.
Qed.

Lemma same_classes_has a b x : same_classes a b -> In x [T_TYPEDEF; T_EXTERN; T_STATIC] -> chain_has x (CHAIN_HEAD a) = chain_has x (CHAIN_HEAD b).
Proof.
  intros H Hx. apply Bool.eq_iff_eq_true. rewrite !self_class by exact Hx. apply H, Hx.
Qed.

(** What follows when the type is known. *)
Definition decl_rest (k : knot) (l : Z) (specs decls type : tree) : M tree :=
  if chain_has T_TYPEDEF specs then handle_typedef E type decls
  else if chain_has T_EXTERN specs then handle_extern_decls E k type decls
  else if chain_has T_STATIC specs then handle_static_decl E k type l specs decls
  else match decls with
       | NULL => ret NULL
       | _ => each_decl (fun d => k_hd k d type) decls
       end.

Lemma denotes_type l t : names_type l t -> match t with D_T _ | D_T_VOID => True | _ => False end.
Proof. intros (l' & H & _). destruct H; exact I. Qed.

Lemma decl_known n l specs decls t s : base_type s specs t ->
  eval_decl E (K E (S n)) l (CHAIN_HEAD specs) decls s = decl_rest (K E (S n)) l (CHAIN_HEAD specs) decls t (after_tick E s).
Proof.
  intros H. unfold eval_decl, resolve_specs. unfold bind at 1.
  rewrite (bind_eq _ _ _ _ _ _ _ (tick_eq E s)). destruct H as [w t Hw|w x post t Hw Hm].
  - rewrite (proj2 (resolve_type w t) Hw). unfold ret at 1. unfold bind at 1, get.
    apply denotes_type in Hw. destruct t; try contradiction; cbn [view_comp is_T_DECL_COMPOUND is_T_IDENTIFIER is_T_ENUMERATOR orb];
      destruct (is_NULL decls); cbn iota; unfold bind at 1, ret at 1; reflexivity.
  - rewrite (proj1 (resolve_self w (T_IDENTIFIER x) post (self_name x)) Hw). unfold ret at 1. unfold bind at 1, get.
    cbn [view_comp is_T_IDENTIFIER orb].
    assert (Hv : k_ev (K E (S n)) (T_IDENTIFIER x) (after_tick E s) = Ok t (after_tick E s)).
    { cbn [K k_ev evaluate_1]. unfold eval_identifier.
      assert (Hv : t <> NULL) by (destruct Hm as (?&?&?&_&_&Hv&_); exact Hv).
      apply (means_lookup s x t Hv) in Hm. rewrite <- (lookup_gc _ _ x (proj1 (gc_only_tick E s))) in Hm.
      revert Hm. generalize (after_tick E s). intros s1 Hm.
      unfold resolve_identifier_global, bind, gets. fold (lookup s1 x). rewrite Hm. destruct t; try reflexivity. congruence. }
    destruct (is_NULL decls); cbn iota; rewrite (bind_eq _ _ _ _ _ _ _ Hv); reflexivity.
Qed.

Lemma bind_same {A B} (f : M A) (g g' : A -> M B) s : (forall a s', f s = Ok a s' -> g a s' = g' a s') -> bind f g s = bind f g' s.
Proof. intros H. unfold bind. destruct (f s); auto. Qed.

Lemma static_same n t l sp1 sp2 decls s :
  handle_static_decl E (K E (S n)) t l sp1 decls s = handle_static_decl E (K E (S n)) t l sp2 decls s.
Proof.
  unfold handle_static_decl. destruct (static_fn _); [reflexivity|].
  apply bind_same. intros _ s1 _. apply bind_same. intros r s2 _. apply bind_same. intros c s3 _.
  apply bind_same. intros u4 s4 H4. injection H4 as _ <-.
  apply bind_same. intros u5 s5 H5. rewrite tick_eq in H5. injection H5 as _ <-.
  apply bind_same. intros u6 s6 H6.
  assert (Hst : zfind l (statics s6) = Some (c_idmap c, c_allocs c)).
  { unfold pop_ctx in H6. destruct (stack _) as [|c1 [|c2 cs]]; try discriminate H6. injection H6 as _ <-.
    cbn. rewrite Z.eqb_refl. reflexivity. }
  unfold bind. cbn [K k_ev evaluate_1]. rewrite Hst. reflexivity.
Qed.

Lemma decl_same n l sp1 sp2 decls t s : base_type s sp1 t -> base_type s sp2 t -> same_classes sp1 sp2 ->
  k_ev (K E (S (S n))) (T_DECL l (CHAIN_HEAD sp1) decls) s = k_ev (K E (S (S n))) (T_DECL l (CHAIN_HEAD sp2) decls) s.
Proof.
  intros H1 H2 Hc. change (evaluate_1 E (K E (S n)) (T_DECL l (CHAIN_HEAD sp1) decls) s = evaluate_1 E (K E (S n)) (T_DECL l (CHAIN_HEAD sp2) decls) s).
  cbn [evaluate_1]. destruct (zfind l (statics s)); [reflexivity|].
  rewrite (decl_known n l sp1 decls t s H1), (decl_known n l sp2 decls t s H2). unfold decl_rest.
  rewrite !(same_classes_has sp1 sp2) by (exact Hc || (cbn; tauto)).
  destruct (chain_has T_TYPEDEF _); [reflexivity|]. destruct (chain_has T_EXTERN _); [reflexivity|].
  destruct (chain_has T_STATIC _); [|reflexivity]. apply static_same.
Qed.

Lemma transparent l sp1 sp2 decls t s r : base_type s sp1 t -> base_type s sp2 t -> same_classes sp1 sp2 ->
  runs E s (T_DECL l (CHAIN_HEAD sp1) decls) r -> runs E s (T_DECL l (CHAIN_HEAD sp2) decls) r.
Proof.
  intros H1 H2 Hc [Hf [n Hn]]. split; [exact Hf|]. exists (S (S n)). unfold evaluate_expr in *.
  rewrite <- (decl_same n l sp1 sp2 decls t s H1 H2 Hc).
  exact (ev_mono E n (S (S n)) _ s r ltac:(lia) Hn Hf).
Qed.

(** The typedef itself. *)
Lemma typedef_declaration l specs t ds s c cs : zfind l (statics s) = None -> base_type s specs t -> In (T_SPEC T_TYPEDEF) specs ->
  stack s = c :: cs -> NoDup (map snd ds) -> (forall x, In x (map snd ds) -> ~ In x (map fst (c_idmap c))) ->
  exists s', runs E s (T_DECL l (CHAIN_HEAD specs) (CHAIN_HEAD (map (fun d => stars (fst d) (T_IDENTIFIER (snd d))) ds)))
      (Ok (last (map (fun d => T_IDENTIFIER (snd d)) ds) NULL) s') /\ names_added E s (typedef_names t ds) s'.
Proof.
  intros Hl Hb Ht Hs Hn Hx. assert (Hs1 : stack (after_tick E s) = c :: cs) by exact Hs.
  destruct (typedef_list t ds NULL (after_tick E s) c cs Hs1 Hn Hx) as (s' & H & A).
  exists s'. split; [|eapply added_gc_l; [apply gc_only_tick|exact A]].
  split; [discriminate|]. exists 2%nat. unfold evaluate_expr.
  change (evaluate_1 E (K E 1) (T_DECL l (CHAIN_HEAD specs) (CHAIN_HEAD (map (fun d => stars (fst d) (T_IDENTIFIER (snd d))) ds))) s =
    Ok (last (map (fun d => T_IDENTIFIER (snd d)) ds) NULL) s').
  cbn [evaluate_1]. rewrite Hl, (decl_known 0 l specs _ t s Hb). unfold decl_rest.
  rewrite (proj2 (self_class T_TYPEDEF specs (or_introl eq_refl)) Ht). exact H.
Qed.

(** Variables declared with a name for a type. *)
Lemma base_variables l specs t ds s c cs : zfind l (statics s) = None -> base_type s specs t -> scalar t ->
  (forall x, In x [T_TYPEDEF; T_EXTERN; T_STATIC] -> ~ In (T_SPEC x) specs) ->
  stack s = c :: cs -> NoDup (map snd ds) -> (forall x, In x (map snd ds) -> ~ declares c x) ->
  let d := T_DECL l (CHAIN_HEAD specs) (CHAIN_HEAD (map (fun d => stars (fst d) (T_IDENTIFIER (snd d))) ds)) in
  out_of_memory E s d 16 \/
  exists s', runs E s d (Ok (last (map (fun d => T_IDENTIFIER (snd d)) ds) NULL) s') /\ declared_all E t s ds s'.
Proof.
  intros Hl Hb Ht Hc Hs Hnd Hres d.
  assert (Hcl : forall x, In x [T_TYPEDEF; T_EXTERN; T_STATIC] -> chain_has x (CHAIN_HEAD specs) = false).
  { intros x Hx. destruct (chain_has x (CHAIN_HEAD specs)) eqn:H; auto. exfalso. apply (Hc x Hx), self_class; auto. }
  assert (Hd : forall r, r <> Fuel -> lim E (fun k => foldM (fun _ d => k_hd k d t) NULL (map (fun d => stars (fst d) (T_IDENTIFIER (snd d))) ds)) (after_tick E s) r -> runs E s d r).
  { intros r Hf [m H]. split; [exact Hf|]. exists (S (S m)). unfold evaluate_expr.
    change (evaluate_1 E (K E (S m)) d s = r). unfold d. cbn [evaluate_1].
    rewrite Hl, (decl_known m l specs _ t s Hb). unfold decl_rest. rewrite !Hcl by (cbn; tauto). cbn [each_decl].
    apply H. lia. }
  destruct (declare_all E ds NULL t (after_tick E s) c cs Hs Ht Hnd) as [(s' & H)|(s' & H & Ha)].
  { intros x Hx. destruct (resolve_id x (c_idmap c)) eqn:Hr; auto; exfalso; apply (Hres x Hx), declares_resolve; congruence. }
  - left. apply (StuckFacts.oom E _ _ _ s'). apply Hd; [discriminate|exact H].
  - right. exists s'. split; [apply Hd; [discriminate|exact H]|]. eapply declared_all_gc_l; [apply gc_only_tick|exact Ha].
Qed.

End Enum.
