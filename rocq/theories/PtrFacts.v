(** Proofs about temporary objects, pointers and arrays. *)
From Coq Require Import ZArith List String Bool Lia.
From Verif Require Import CInt CIntFacts Tree SpecResolver State Eval StepsFacts EvalInv SpecScope ScopeFacts SpecRun StuckFacts RunFacts RunRules
  SpecExpr ExprFacts SpecControl SpecStmt ControlFacts CallFacts SpecNames NameFacts SpecTypes SpecTypesFacts SpecVars VarFacts SpecPtr.
Import ListNotations.
Local Open Scope Z_scope.
Local Open Scope m_scope.
Local Open Scope list_scope.

Section New.
Variable E : env.

(** ** What is kept *)

Lemma kept_refl s : kept E s s.
Proof. split; auto. Qed.

Lemma storage_one s a n x : storage E s a n -> a <= x < a + n -> storage E s x 1.
Proof. intros H Hx. eapply storage_sub; [exact H|lia|lia]. Qed.

Lemma kept_trans s1 s2 s3 : kept E s1 s2 -> kept E s2 s3 -> kept E s1 s3.
Proof.
  intros [A1 B1] [A2 B2]. split.
  - intros a n H. auto.
  - intros a H. rewrite B2, B1 by auto. reflexivity.
Qed.

Lemma kept_gc s s' : only_gc E s s' -> kept E s s'.
Proof. intros [[] [G _]]. split; auto. intros a _. congruence. Qed.

Lemma same_rest_refl s : same_rest s s.
Proof. repeat split. Qed.
Lemma same_rest_trans s1 s2 s3 : same_rest s1 s2 -> same_rest s2 s3 -> same_rest s1 s3.
Proof. unfold same_rest. intuition congruence. Qed.

Lemma scope_plus_nil c : scope_plus c [] [] = c.
Proof. destruct c. unfold scope_plus. cbn. rewrite !app_nil_r. reflexivity. Qed.

Lemma only_new_refl s : stack s <> [] -> only_new E s [] s.
Proof.
  intros H. split; [|split; [apply kept_refl|apply same_rest_refl]].
  destruct (stack s) as [|c cs] eqn:Es; [congruence|]. exists c, cs, []. rewrite scope_plus_nil.
  split; [reflexivity|]. split; [reflexivity|]. intros b []. auto.
Qed.

Lemma used_new s m s' b : only_new E s m s' -> used_block E s b -> used_block E s' b.
Proof.
  intros ((c & cs & al & H1 & H2 & H3) & _ & R) Hb. split; [apply H3, Hb|]. destruct Hb as [_ [Hb|Hb]]; [left; exact Hb|right].
  destruct R as (R1 & _ & _ & _ & R2 & _). revert Hb. unfold roots. rewrite R1, R2, H1, H2. cbn [flat_map scope_plus c_allocs].
  rewrite !in_app_iff. tauto.
Qed.

Lemma only_new_trans s1 m1 s2 m2 s3 : only_new E s1 m1 s2 -> only_new E s2 m2 s3 -> only_new E s1 (m1 ++ m2) s3.
Proof.
  intros N1. assert (U := fun b => used_new s1 m1 s2 b N1). revert N1.
  intros ((c & cs & al & H1 & H2 & H5) & K1 & R1) ((c' & cs' & al' & H3 & H4 & H6) & K2 & R2).
  split; [|split; [eapply kept_trans; eauto|eapply same_rest_trans; eauto]].
  rewrite H2 in H3. injection H3 as <- <-. exists c, cs, (al ++ al'). split; [exact H1|]. rewrite H4. split.
  - unfold scope_plus. cbn. rewrite <- !app_assoc. reflexivity.
  - intros b Hb. destruct (H5 b Hb) as [_ B1]. destruct (H6 b (U b Hb)) as [B2 B3]. split; [exact B2|].
    rewrite in_app_iff. tauto.
Qed.

Lemma only_new_trans0 s1 s2 m s3 : only_new E s1 [] s2 -> only_new E s2 m s3 -> only_new E s1 m s3.
Proof. exact (only_new_trans s1 [] s2 m s3). Qed.

Lemma only_new_nonempty s m s' : only_new E s m s' -> stack s' <> [].
Proof. intros ((c & cs & al & H1 & H2 & _) & _). congruence. Qed.

Lemma only_new_gc s s' : stack s <> [] -> only_gc E s s' -> only_new E s [] s'.
Proof.
  intros Hs H. split; [|split; [apply kept_gc, H|]].
  - destruct (stack s) as [|c cs] eqn:Es; [congruence|]. exists c, cs, []. rewrite scope_plus_nil. split; auto.
    destruct H as [G [_ Hb]]. split; [rewrite (sg_stack _ _ G); exact Es|]. auto.
  - destruct H as [[] _]. repeat split; auto.
Qed.

Lemma kept_mem s s' a n : kept E s s' -> storage E s a (Z.of_nat n) -> unsigned_at (mem s') a n = unsigned_at (mem s) a n.
Proof.
  intros [_ K]. revert a. induction n; intros a H; auto. cbn [unsigned_at].
  rewrite K, IHn; auto; [|eapply storage_one; [exact H|lia]]. eapply storage_sub; [exact H|lia|lia].
Qed.

Lemma kept_value s s' c a : kept E s s' -> storage E s a (width c) -> value_at s' c a = value_at s c a.
Proof.
  intros K H. unfold value_at. rewrite (kept_mem s s' a _ K); auto. rewrite Z2Nat.id; auto. destruct c; cbn; lia.
Qed.

Lemma kept_number s s' t z : kept E s s' -> number E s t z -> number E s' t z.
Proof.
  intros K H. destruct H.
  - constructor.
  - rewrite <- (kept_value s s' c a K) by assumption. constructor; auto. apply K; auto.
  - rewrite <- (kept_mem s s' a 8 K) by assumption. constructor. apply K; auto.
Qed.

Lemma new_object_l s m s1 a n s2 : only_new E s m s1 -> new_object E s1 a n s2 -> new_object E s a n s2.
Proof.
  intros (_ & [K _] & _) (H1 & H2 & H3 & H4). split; [exact H1|split; [exact H2|split; [exact H3|]]].
  intros a' n' Hn H. apply H4; auto.
Qed.

Lemma new_object_kept s a n s1 s2 : new_object E s a n s1 -> kept E s1 s2 -> new_object E s a n s2.
Proof.
  intros (H1 & H2 & H3 & H4) [K _]. split; [apply K; auto|split; [exact H2|split; [exact H3|]]].
  intros a' n' Hn H. destruct (H4 a' n' Hn H). split; auto.
Qed.

Lemma new_object_r s a n s1 m s2 : new_object E s a n s1 -> only_new E s1 m s2 -> new_object E s a n s2.
Proof.
  intros (H1 & H2 & H3 & H4) (_ & [K _] & _). split; [apply K; auto|split; [exact H2|split; [exact H3|]]].
  intros a' n' Hn H. destruct (H4 a' n' Hn H). split; auto.
Qed.

Lemma resolve_maps_cons x m ms : resolve_maps x (m :: ms) = if is_NULL (resolve_id x m) then resolve_maps x ms else resolve_id x m.
Proof. cbn [resolve_maps]. destruct (resolve_id x m); reflexivity. Qed.

Lemma resolve_id_app_other x m m' : ~ In x (map fst m') -> resolve_id x (m ++ m') = resolve_id x m.
Proof.
  intros Hn. induction m as [|[y t] m IH]; cbn.
  - induction m' as [|[y t] m' IH]; cbn in *; auto. destruct (String.eqb_spec y x); [subst; tauto|]. apply IH. tauto.
  - destruct (String.eqb y x); auto.
Qed.

Lemma only_new_lookup s m s' x : only_new E s m s' -> ~ In x (map fst m) -> lookup s' x = lookup s x.
Proof.
  intros ((c & cs & al & H1 & H2 & _) & _ & R) Hx. unfold lookup, scope_ctxs. destruct R as (R & _). rewrite R, H1, H2.
  cbn [app map]. rewrite !resolve_maps_cons. cbn [scope_plus c_idmap]. rewrite resolve_id_app_other by exact Hx. reflexivity.
Qed.

Lemma only_new_means s m s' x v : only_new E s m s' -> ~ In x (map fst m) -> means s x v -> means s' x v.
Proof.
  intros H Hx Hm. assert (Hv : v <> NULL) by (destruct Hm as (?&?&?&_&_&Hv&_); exact Hv).
  apply means_lookup; auto. rewrite (only_new_lookup _ _ _ _ H Hx). apply means_lookup; auto.
Qed.

(** ** Elementary operations *)

Lemma tick_new s : stack s <> [] -> only_new E s [] (after_tick E s).
Proof. intros H. apply only_new_gc; auto. apply gc_only_tick. Qed.

Lemma malloc_cases n s :
  (exists a s', malloc E n s = Ok a s' /\ malloc_ok E s n /\ a = e_malloc E s n /\
     s' = set_blocks (fun bs => mkblock (e_malloc E s n) n false :: bs) s) \/
  (malloc E n s = NoMemory n s).
Proof.
  destruct (malloc E n s) as [a s'| | | | | | | |] eqn:Hm; unfold malloc in Hm; destruct (_ && _) eqn:Hc; try discriminate Hm.
  - left. exists a, s'. split; auto. apply malloc_inv. unfold malloc. rewrite Hc. exact Hm.
  - right. symmetry. exact Hm.
Qed.

Lemma malloc_new n s a s' : stack s <> [] -> malloc E n s = Ok a s' ->
  only_new E s [] s' /\ new_object E s a n s' /\ mem s' = mem s /\ In (mkblock a n false) (blocks s').
Proof.
  intros Hs H. apply malloc_inv in H as ((M1 & M2 & M3) & -> & ->). set (a := e_malloc E s n) in *.
  set (s' := set_blocks (fun bs => mkblock a n false :: bs) s).
  assert (Hst : forall a' n', storage E s a' n' -> storage E s' a' n').
  { intros a' n' (b & Hb & H1 & H2 & H3). exists b. split; [right; exact Hb|]. auto. }
  split; [|split; [|split; [reflexivity|left; reflexivity]]].
  - split; [|split; [split; auto|repeat split]].
    destruct (stack s) as [|c cs] eqn:Es; [congruence|]. exists c, cs, []. rewrite scope_plus_nil.
    split; [reflexivity|]. split; [exact Es|]. intros b [Hb _]. split; [right; exact Hb|auto].
  - split; [|split; [exact M1|split; [lia|]]].
    + exists (mkblock a n false). cbn. repeat split; auto; lia.
    + intros a' n' Hn H. split; auto. destruct H as (b & Hb & H1 & H2 & _).
      eapply forallb_forall in M3; [|exact Hb]. unfold disjoint_blocks in M3. apply orb_true_iff in M3.
      rewrite !Z.leb_le in M3. lia.
Qed.

Lemma track_ok a s : stack s <> [] -> track_alloc E a s =
  Ok tt (set_blocks (map (mark a)) (with_top (c_set_allocs (fun l => l ++ [a])) (after_tick E s))).
Proof.
  intros Hs. unfold track_alloc. rewrite (bind_eq _ _ _ _ _ _ _ (tick_eq E s)).
  rewrite (bind_eq _ _ _ _ _ _ _ (upd_top_with _ (after_tick E s) Hs)). reflexivity.
Qed.

Lemma track_kept a s u s' : stack s <> [] -> track_alloc E a s = Ok u s' ->
  (exists c cs, stack s = c :: cs /\ stack s' = scope_plus c [] [a] :: cs) /\ kept E s s' /\ same_rest s s' /\ mem s' = mem s /\
  forall b, used_block E s b -> b_base b <> a -> In b (blocks s').
Proof.
  intros Hs H. rewrite (track_ok a s Hs) in H. injection H as _ <-.
  assert (N := tick_new s Hs). assert (Hs1 : stack (after_tick E s) = stack s) by reflexivity.
  assert (M1 : mem (after_tick E s) = mem s) by reflexivity. revert N Hs1 M1. generalize (after_tick E s). intros s1 N Hs1 M1.
  destruct (stack s) as [|c cs] eqn:Es; [congruence|].
  set (s' := set_blocks (map (mark a)) (with_top (c_set_allocs (fun l => l ++ [a])) s1)).
  assert (Hstk : stack s' = scope_plus c [] [a] :: cs).
  { unfold s', with_top. cbn [stack set_blocks set_stack]. rewrite Hs1. unfold scope_plus. rewrite app_nil_r. reflexivity. }
  assert (Hroots : forall x, In x (roots E s1) \/ x = a -> In x (roots E s')).
  { intros x Hx. unfold roots in *. rewrite Hstk. rewrite Hs1 in Hx. rewrite !in_app_iff in *.
    cbn [flat_map] in *. rewrite !in_app_iff in *. cbn [scope_plus c_allocs]. rewrite in_app_iff. cbn [In].
    destruct Hx as [[[Hx|Hx]|Hx]|Hx]; auto. }
  assert (K1 : kept E s1 s').
  { split; [|reflexivity]. intros b n (bl & Hb & H1 & H2 & H3). exists (mark a bl). split; [apply in_map; exact Hb|]. unfold mark.
    destruct (Z.eqb_spec (b_base bl) a); cbn; (split; [exact H1|split; [exact H2|]]).
    - right. apply Hroots. auto.
    - destruct H3; auto. }
  split; [exists c, cs; auto|]. split; [eapply kept_trans; [apply N|exact K1]|].
  split; [eapply same_rest_trans; [apply N|]; repeat split|]. split; [exact M1|].
  intros b Hb Hne. apply (used_new _ _ _ _ N) in Hb. destruct Hb as [Hb _]. cbn [s' blocks set_blocks]. apply in_map_iff. exists b.
  split; [|exact Hb]. unfold mark. destruct (Z.eqb_spec (b_base b) a); [contradiction|reflexivity].
Qed.

(** Memory that was got by malloc and is now given to the current scope. *)
Lemma alloc_new s a n s1 m s2 u s3 : stack s <> [] -> malloc E n s = Ok a s1 -> only_new E s1 m s2 -> track_alloc E a s2 = Ok u s3 ->
  only_new E s m s3 /\ mem s3 = mem s2.
Proof.
  intros Hs Hm N2 Ht. destruct (malloc_new n s a s1 Hs Hm) as (N1 & _ & _ & _).
  assert (Hne : forall b, In b (blocks s) -> b_base b <> a).
  { intros b Hb. apply malloc_inv in Hm as ((M1 & M2 & M3) & -> & ->). eapply forallb_forall in M3; [|exact Hb].
    unfold disjoint_blocks in M3. apply orb_true_iff in M3. rewrite !Z.leb_le in M3. lia. }
  assert (N := only_new_trans0 _ _ _ _ N1 N2).
  destruct (track_kept a s2 u s3 (only_new_nonempty _ _ _ N2) Ht) as ((c2 & cs2 & T1 & T2) & K & R & M & B).
  split; [|exact M]. pose proof (fun b => used_new s m s2 b N) as U.
  destruct N as ((c & cs & al & S1 & S2 & S3) & K0 & R0). split; [|split; [eapply kept_trans; eauto|eapply same_rest_trans; eauto]].
  exists c, cs, (al ++ [a]). split; [exact S1|]. rewrite S2 in T1. injection T1 as <- <-. split.
  - rewrite T2. unfold scope_plus. cbn. rewrite app_nil_r, <- app_assoc. reflexivity.
  - intros b Hb. split; [apply B; [apply U, Hb|apply Hne, Hb]|]. rewrite in_app_iff. cbn [In]. intros [H|[H|[]]].
    + exact (proj2 (S3 b Hb) H).
    + exact (Hne b (proj1 Hb) (eq_sym H)).
Qed.

Lemma make_live_var_new s : stack s <> [] ->
  (exists a s', make_live_var_addr E s = Ok a s' /\ only_new E s [] s' /\ new_object E s a 16 s' /\ mem s' = mem s) \/
  (make_live_var_addr E s = NoMemory 16 (after_tick E s)).
Proof.
  intros Hs. unfold make_live_var_addr. rewrite (bind_eq _ _ _ _ _ _ _ (tick_eq E s)).
  pose proof (tick_new s Hs) as N1. set (s1 := after_tick E s) in *.
  assert (Hs1 : stack s1 <> []) by exact Hs.
  assert (M1 : mem s1 = mem s) by reflexivity.
  destruct (malloc E 16 s1) as [a s2| | | | | | | |] eqn:Hm.
  1: { left. destruct (malloc_new 16 s1 a s2 Hs1 Hm) as (N2 & O2 & M2 & _).
       rewrite (bind_eq _ _ _ _ _ _ _ Hm).
       assert (Hs2 := only_new_nonempty _ _ _ N2).
       pose proof (track_ok a s2 Hs2) as Ht.
       destruct (alloc_new s1 a 16 s2 [] s2 _ _ Hs1 Hm (only_new_refl s2 Hs2) Ht) as (N3 & M3).
       destruct (track_kept a s2 _ _ Hs2 Ht) as (_ & K3 & _).
       rewrite (bind_eq _ _ _ _ _ _ _ Ht). eexists a, _. split; [reflexivity|].
       split; [eapply only_new_trans0; [exact N1|]; exact N3|].
       split; [|congruence]. eapply new_object_l; [exact N1|]. eapply new_object_kept; [exact O2|exact K3]. }
  all: destruct (malloc_cases 16 s1) as [(a & s' & H & _)|H]; rewrite H in Hm; try discriminate Hm.
  right. unfold bind. rewrite H. reflexivity.
Qed.

(** Writing into a new object. *)
Lemma write_new s a n s1 bytes : only_new E s [] s1 -> new_object E s a n s1 -> 
  Z.of_nat (List.length bytes) <= n ->
  let s2 := set_mem (fun m => store_bytes m a bytes) s1 in
  store a bytes s1 = Ok tt s2 /\ only_new E s [] s2 /\ new_object E s a n s2.
Proof.
  intros N O L. cbv zeta. split; [|split].
  - unfold store. rewrite (storage_valid E); [reflexivity|]. destruct O as (O & _). eapply storage_sub; [exact O|lia|lia].
  - destruct N as (N1 & [N2 N3] & N4). split; [exact N1|]. split; [split; [exact N2|]|exact N4].
    intros x Hx. cbn. rewrite store_bytes_out; [apply N3, Hx|]. destruct O as (_ & _ & _ & O).
    destruct (O x 1 ltac:(lia) Hx) as [_ O']. lia.
  - exact O.
Qed.

(** ** Composition *)

(** [f] has a value at all large depths, or fails because there is no memory; it only adds the
    names [m] and new objects. *)
Definition yields {A} (f : knot -> M A) (s : state) (Q : Z -> Prop) (m : list (string * tree)) (P : A -> state -> Prop) : Prop :=
  stack s <> [] ->
  (exists n s', Q n /\ lim E f s (NoMemory n s')) \/
  exists a s', lim E f s (Ok a s') /\ only_new E s m s' /\ P a s'.

Lemma y_bind A B (f : knot -> M A) (g : knot -> A -> M B) s Q m1 m2 P R :
  yields f s Q m1 P ->
  (forall a s1, only_new E s m1 s1 -> P a s1 -> yields (fun k => g k a) s1 Q m2 R) ->
  yields (fun k => bind (f k) (g k)) s Q (m1 ++ m2) R.
Proof.
  intros Hf Hg Hs. destruct (Hf Hs) as [(n & s' & Hn & H)|(a & s1 & H & N & HP)].
  - left. exists n, s'. split; [exact Hn|]. apply (lim_bind_fail E _ _ _ _ s _ H). reflexivity.
  - destruct (Hg a s1 N HP (only_new_nonempty _ _ _ N)) as [(n & s' & Hn & H')|(b & s2 & H' & N' & HR)].
    + left. exists n, s'. split; [exact Hn|]. eapply lim_bind; eauto.
    + right. exists b, s2. split; [eapply lim_bind; eauto|]. split; auto. eapply only_new_trans; eauto.
Qed.

Lemma y_bind0 A B (f : knot -> M A) (g : knot -> A -> M B) s Q m P R :
  yields f s Q [] P ->
  (forall a s1, only_new E s [] s1 -> P a s1 -> yields (fun k => g k a) s1 Q m R) ->
  yields (fun k => bind (f k) (g k)) s Q m R.
Proof. exact (y_bind A B f g s Q [] m P R). Qed.

Lemma y_ret A (a : A) s Q (P : A -> state -> Prop) : P a s -> yields (fun _ => ret a) s Q [] P.
Proof. intros H Hs. right. exists a, s. split; [apply lim_const; reflexivity|]. split; auto. apply only_new_refl, Hs. Qed.

Lemma y_impl A (f : knot -> M A) s (Q Q' : Z -> Prop) m (P R : A -> state -> Prop) :
  (forall n, Q n -> Q' n) -> (forall a s', only_new E s m s' -> P a s' -> R a s') -> yields f s Q m P -> yields f s Q' m R.
Proof.
  intros HQ HR H Hs. destruct (H Hs) as [(n & s' & Hn & H')|(a & s1 & H' & N & HP)]; [left; exists n, s'; auto|right; exists a, s1; auto].
Qed.

Lemma y_ext A (f g : knot -> M A) s Q m P : (forall k, f k s = g k s) -> yields g s Q m P -> yields f s Q m P.
Proof.
  intros H Hg Hs. destruct (Hg Hs) as [(n & s' & Hn & H')|(a & s1 & H' & N)]; [left|right].
  - exists n, s'. split; auto. eapply lim_ext; eauto.
  - exists a, s1. split; auto. eapply lim_ext; eauto.
Qed.

Lemma y_pure A (f : knot -> M A) s a Q (P : A -> state -> Prop) : (forall k, f k s = Ok a s) -> P a s -> yields f s Q [] P.
Proof. intros H HP Hs. right. exists a, s. split; [apply lim_const, H|]. split; auto. apply only_new_refl, Hs. Qed.

Lemma y_tick s Q : yields (fun _ => tick E) s Q [] (fun _ s' => s' = after_tick E s).
Proof. intros Hs. right. exists tt, (after_tick E s). split; [apply lim_const; reflexivity|]. split; auto. apply tick_new, Hs. Qed.

Lemma y_malloc n s (Q : Z -> Prop) : Q n -> yields (fun _ => malloc E n) s Q [] (fun a s' => new_object E s a n s' /\ mem s' = mem s).
Proof.
  intros Hn Hs. destruct (malloc E n s) as [a s'| | | | | | | |] eqn:Hm.
  1: { right. exists a, s'. split; [apply lim_const; auto|]. destruct (malloc_new n s a s' Hs Hm) as (N & O & M & _). auto. }
  all: destruct (malloc_cases n s) as [(a & s' & H & _)|H]; rewrite H in Hm; try discriminate Hm.
  left. exists n, s. split; [exact Hn|]. apply lim_const; auto.
Qed.

(** Memory from malloc that is used by [g] and then given to the current scope. *)
Lemma y_alloc A n (g : knot -> Z -> M A) s (Q : Z -> Prop) m P : Q n ->
  (forall a s1, only_new E s [] s1 -> new_object E s a n s1 -> mem s1 = mem s -> yields (fun k => g k a) s1 Q m (P a)) ->
  yields (fun k => bind (malloc E n) (fun a => bind (g k a) (fun r => bind (track_alloc E a) (fun _ => ret (a, r))))) s Q m
    (fun r s' => new_object E s (fst r) n s' /\ exists s2, only_new E s m s2 /\ P (fst r) (snd r) s2 /\ kept E s2 s' /\ mem s' = mem s2).
Proof.
  intros Hn Hg Hs. destruct (malloc_cases n s) as [(a & s1 & H & _)|H].
  - destruct (malloc_new n s a s1 Hs H) as (N1 & O1 & M1 & _).
    destruct (Hg a s1 N1 O1 M1 (only_new_nonempty _ _ _ N1)) as [(n' & s' & Hn' & H')|(r & s2 & H' & N2 & HP)].
    + left. exists n', s'. split; [exact Hn'|]. eapply lim_bind; [apply lim_const; intros _; exact H|].
      apply (lim_bind_fail E _ _ _ _ _ _ H'). reflexivity.
    + right. pose proof (track_ok a s2 (only_new_nonempty _ _ _ N2)) as Ht.
      destruct (alloc_new s a n s1 m s2 _ _ Hs H N2 Ht) as [N3 M3].
      destruct (track_kept a s2 _ _ (only_new_nonempty _ _ _ N2) Ht) as (_ & K3 & _).
      eexists (a, r), _. split.
      * eapply lim_bind; [apply lim_const; intros _; exact H|]. eapply lim_bind; [exact H'|].
        eapply lim_bind; [apply lim_const; intros _; exact Ht|]. apply lim_const. reflexivity.
      * split; [exact N3|]. cbn [fst snd]. split; [eapply new_object_kept; [eapply new_object_r; [exact O1|exact N2]|exact K3]|].
        exists s2. split; [eapply only_new_trans0; eauto|auto].
  - left. exists n, s. split; [exact Hn|]. apply (lim_bind_fail E _ _ _ _ _ (NoMemory n s)); [apply lim_const; auto|reflexivity].
Qed.

Lemma y_live_var s (Q : Z -> Prop) : Q 16 -> yields (fun _ => make_live_var_addr E) s Q [] (fun a s' => new_object E s a 16 s' /\ mem s' = mem s).
Proof.
  intros Hq Hs. destruct (make_live_var_new s Hs) as [(a & s' & H & N & O & M)|H]; [right|left].
  - exists a, s'. split; [apply lim_const; auto|]. auto.
  - exists 16, (after_tick E s). split; [exact Hq|]. apply lim_const; auto.
Qed.

(** A temporary object with contents. *)
Lemma y_temp A bytes (g : knot -> Z -> M A) s (Q : Z -> Prop) m P : Q 16 -> Z.of_nat (List.length bytes) <= 16 ->
  (forall a s1, only_new E s [] s1 -> new_object E s a 16 s1 -> mem s1 = store_bytes (mem s) a bytes -> yields (fun k => g k a) s1 Q m P) ->
  yields (fun k => bind (make_live_var_addr E) (fun a => bind (store a bytes) (fun _ => g k a))) s Q m P.
Proof.
  intros Hq Hl Hg Hs. destruct (make_live_var_new s Hs) as [(a & s1 & H & N & O & M)|H].
  - destruct (write_new s a 16 s1 bytes N O Hl) as (W & N2 & O2). cbv zeta in *.
    set (s2 := set_mem (fun m => store_bytes m a bytes) s1) in *.
    assert (M2 : mem s2 = store_bytes (mem s) a bytes) by (unfold s2; cbn; rewrite M; reflexivity).
    destruct (Hg a s2 N2 O2 M2 (only_new_nonempty _ _ _ N2)) as [(n & s' & Hn & H')|(b & s3 & H' & N' & HP)].
    + left. exists n, s'. split; [exact Hn|].
      destruct H' as [j H']. exists j. intros i Hi. rewrite (bind_eq _ _ _ _ _ _ _ H), (bind_eq _ _ _ _ _ _ _ W). apply H', Hi.
    + right. exists b, s3. split; [|split; auto; eapply only_new_trans0; eauto].
      destruct H' as [j H']. exists j. intros i Hi. rewrite (bind_eq _ _ _ _ _ _ _ H), (bind_eq _ _ _ _ _ _ _ W). apply H', Hi.
  - left. exists 16, (after_tick E s). split; [exact Hq|]. apply lim_const. intros k. unfold bind. rewrite H. reflexivity.
Qed.

Lemma y_ev s t r s' Q m (P : tree -> state -> Prop) : runs E s t (Ok r s') -> only_new E s m s' -> P r s' -> yields (fun k => k_ev k t) s Q m P.
Proof. intros H N HP Hs. right. exists r, s'. split; auto. apply lim_ev, H. Qed.

Lemma y_run s t r s' Q m : runs E s t (Ok r s') -> only_new E s m s' -> yields (fun k => k_ev k t) s Q m (fun r' s'' => r' = r /\ s'' = s').
Proof. intros H N. eapply y_ev; eauto. Qed.

Lemma y_eval1 s t Q m P : yields (fun k => evaluate_1 E k t) s Q m P -> yields (fun k => k_ev k t) s Q m P.
Proof.
  intros H Hs. destruct (H Hs) as [(n & s' & Hn & H')|(a & s' & H' & N)]; [left; exists n, s'|right; exists a, s']; split; auto; apply lim_eval1, H'.
Qed.

Lemma y_map x v s Q : (forall c cs, stack s = c :: cs -> resolve_id x (c_idmap c) = NULL) ->
  yields (fun _ => map_identifier E (T_IDENTIFIER x) v) s Q [(x, v)] (fun _ s' => mem s' = mem s).
Proof.
  intros Hx Hs. right. destruct (stack s) as [|c cs] eqn:Es; [congruence|].
  exists tt, (mapped E x v s). split.
  - apply lim_const. intros _. rewrite (map_identifier_cases E x v s c cs Es), (Hx c cs eq_refl). reflexivity.
  - split; [|reflexivity]. apply (only_new_trans0 s (after_tick E s)); [apply tick_new; congruence|].
    unfold mapped. assert (Es' : stack (after_tick E s) = c :: cs) by exact Es. revert Es'. generalize (after_tick E s).
    clear. intros s Es. split; [|split; [|repeat split]].
    + exists c, cs, []. split; auto. split; [|intros b [Hb _]; split; auto].
      unfold with_top. cbn [stack set_stack]. rewrite Es. unfold scope_plus, c_set_idmap. rewrite app_nil_r. reflexivity.
    + split; [|reflexivity]. intros b n (bl & B1 & B2 & B3 & B4). exists bl. split; [exact B1|]. split; [exact B2|].
      split; [exact B3|]. destruct B4 as [B4|B4]; [left; exact B4|right].
      revert B4. unfold roots, with_top. cbn [stack set_stack incl statics]. rewrite Es. cbn [flat_map c_set_idmap c_allocs]. auto.
Qed.

(** Evaluation outcome from a [yields]. *)
Lemma y_runs s t Q m P : stack s <> [] -> yields (fun k => evaluate_1 E k t) s Q m P ->
  (exists n, Q n /\ out_of_memory E s t n) \/
  exists r s', runs E s t (Ok r s') /\ only_new E s m s' /\ P r s'.
Proof.
  intros Hs H. destruct (H Hs) as [(n & s' & Hn & H')|(a & s' & H' & N)]; [left; exists n|right; exists a, s'].
  - split; auto. eapply oom. apply lim_runs; [discriminate|exact H'].
  - split; auto. apply lim_runs; auto. discriminate.
Qed.

(** ** Numbers *)

Lemma y_expr rho e v s Q : reads E s rho e -> denote rho e = Some v ->
  yields (fun k => k_ev k (syntax e)) s Q [] (fun r s' => only_gc E s s' /\ number E s' r v).
Proof.
  intros Hr Hd Hs. destruct (expr_correct E rho e s Hr) as (s' & G & H). rewrite Hd in H. destruct H as (r & H & N).
  right. exists r, s'. split; [apply lim_ev, H|]. split; auto. apply only_new_gc; auto.
Qed.

Lemma reads_new s s' rho e : only_new E s [] s' -> reads E s rho e -> reads E s' rho e.
Proof.
  intros N H y Hy. rewrite (only_new_lookup _ _ _ _ N) by (intros []). eapply kept_number; [apply N|]. auto.
Qed.

Lemma y_int r z s Q : number E s r z -> yields (fun _ => lv_to_int E r) s Q [] (fun r' s' => only_gc E s s' /\ r' = T_INTEGER z).
Proof.
  intros H Hs. destruct (lv_to_int_number E s r z H) as (s' & Hl & G). right. exists (T_INTEGER z), s'.
  split; [apply lim_const; auto|]. split; auto. apply only_new_gc; auto.
Qed.

Lemma y_load a n s Q : storage E s a n -> yields (fun _ => load a n) s Q [] (fun v s' => s' = s /\ v = unsigned_at (mem s) a (Z.to_nat n)).
Proof.
  intros H. eapply y_pure; [intros k; apply load_valid; eapply storage_valid; eauto|]. split; auto.
Qed.

(** ** Sizes *)

Lemma same_rest_comps s s' t : same_rest s s' -> view_comp s' t = view_comp s t.
Proof. intros (_&_&_&_&_&R&_). unfold view_comp. rewrite R. reflexivity. Qed.

Lemma type_size_rest s s' t n : same_rest s s' -> type_size s t n -> type_size s' t n.
Proof. intros R H. destruct H; constructor; auto. rewrite (same_rest_comps s s') by exact R. assumption. Qed.

Lemma value_size_rest s s' t n : same_rest s s' -> value_size s t n -> value_size s' t n.
Proof. intros R H. destruct H; constructor; eauto using type_size_rest. Qed.

Lemma y_get A (g : knot -> state -> M A) s Q m P : yields (fun k => g k s) s Q m P -> yields (fun k => bind get (g k)) s Q m P.
Proof. intros H. eapply y_ext; [|exact H]. reflexivity. Qed.

(** The temporary that holds a number or address. *)
Definition temp_holds (s : state) (t : tree) (v : Z) (r : tree) (s' : state) : Prop :=
  exists p, r = T_LIVE_VAR t p false 0 /\ new_object E s p 16 s' /\ unsigned_at (mem s') p 8 = v mod 2 ^ 64.

Lemma temp_holds_l s m s1 t v r s2 : only_new E s m s1 -> temp_holds s1 t v r s2 -> temp_holds s t v r s2.
Proof. intros N (p & H1 & H2 & H3). exists p. split; [exact H1|split; [eapply new_object_l; eauto|exact H3]]. Qed.

Lemma temp_storage s v p s' : new_object E s p 16 s' -> unsigned_at (mem s') p 8 = v mod 2 ^ 64 -> storage E s' p 8.
Proof. intros (H & _) _. eapply storage_sub; [exact H|lia|lia]. Qed.

Lemma y_temp_ret t v s (Q : Z -> Prop) : Q 16 ->
  yields (fun _ => bind (make_live_var_addr E) (fun a => bind (store a (le_bytes 8 v)) (fun _ => ret (live_var t a)))) s Q []
    (temp_holds s t v).
Proof.
  intros Hq. apply (y_temp _ (le_bytes 8 v) (fun _ a => ret (live_var t a))); [exact Hq|cbn; lia|].
  intros a s1 N O M. apply y_ret. exists a. split; [reflexivity|]. split; [exact O|]. rewrite M. apply unsigned_store.
Qed.

(** eval_sizeof after the operand. *)
Definition sizeof_rest (k : knot) (e : tree) : M tree :=
  a <- make_live_var_addr E ;;
  s <- get ;;
  let fin n := store a (le_bytes 8 n) ;; ret (live_var (D_T D_T_ULONG) a) in
  let of_type type :=
    match type with
    | D_T c => fin (csize c)
    | D_T_PTR _ => fin 8
    | _ => match view_comp s type with
           | Some c => if cd_exp c then fin (cd_sz c) else abort
           | None => die
           end
    end in
  match e with
  | T_LIVE_VAR (D_T_PTR _) _ true n => fin n
  | T_LIVE_VAR type _ _ _ => of_type type
  | T_LIVE_COMPOUND decl _ _ => of_type decl
  | T_POINTER _ => fin 8
  | T_ARRAY_TYPE base sz => tick E ;; n <- get_array_size E k sz base ;; fin n
  | _ => of_type e
  end.

Lemma y_sizeof_rest r n s1 (Q : Z -> Prop) : Q 16 -> value_size s1 r n ->
  yields (fun k => sizeof_rest k r) s1 Q [] (temp_holds s1 (D_T D_T_ULONG) n).
Proof.
  intros Hq Hn Hs1. revert Hs1 Hn. intros Hs1.
  assert (Hs : forall a s2, make_live_var_addr E s1 = Ok a s2 -> same_rest s1 s2).
  { intros a s2 Ha. destruct (make_live_var_new s1 Hs1) as [(a' & s' & H1 & H2 & _)|H1];
      rewrite H1 in Ha; [injection Ha as <- <-; apply H2|discriminate Ha]. }
  revert Hs1. intros Hs1 Hn. revert Hs1.
  eapply y_ext; [|apply (y_temp_ret (D_T D_T_ULONG) n s1 Q Hq)]. intros k. unfold sizeof_rest.
  unfold bind. destruct (make_live_var_addr E s1) as [a s2| | | | | | | |] eqn:Ha; auto. specialize (Hs a s2 eq_refl).
  unfold get. apply (value_size_rest _ _ _ _ Hs) in Hn.
  destruct Hn as [t p z|t p z z' H|d ms b z H|t z H].
  - reflexivity.
  - destruct H as [c|t|t c H1 H2]; [reflexivity|reflexivity|]. destruct t; try discriminate H1; rewrite H1, H2; reflexivity.
  - destruct H as [c|t|t c H1 H2]; [reflexivity|reflexivity|]. destruct t; try discriminate H1; rewrite H1, H2; reflexivity.
  - destruct H as [c|t|t c H1 H2]; [reflexivity|reflexivity|]. destruct t; try discriminate H1; rewrite H1, H2; reflexivity.
Qed.

Lemma y_sizeof e s (Q : Z -> Prop) m P n : Q 16 -> yields (fun k => k_ev k e) s Q m P ->
  (forall r s1, only_new E s m s1 -> P r s1 -> value_size s1 r n) ->
  yields (fun k => evaluate_1 E k (T_SIZEOF e)) s Q m (temp_holds s (D_T D_T_ULONG) n).
Proof.
  intros Hq He Hn. change (fun k => evaluate_1 E k (T_SIZEOF e)) with (fun k => bind (k_ev k e) (sizeof_rest k)).
  apply (y_impl _ _ _ Q Q m (fun r s' => exists s1 m1, only_new E s m1 s1 /\ temp_holds s1 (D_T D_T_ULONG) n r s')).
  { auto. } { intros r s' _ (s1 & m1 & N & H). eapply temp_holds_l; eauto. }
  rewrite <- (app_nil_r m).
  eapply y_bind; [exact He|]. intros r s1 N HP. specialize (Hn r s1 N HP). clear He HP. 
  apply (y_impl _ _ _ Q Q [] (temp_holds s1 (D_T D_T_ULONG) n)); [auto|intros; exists s1, m; auto|].
  apply y_sizeof_rest; auto.
Qed.

Lemma y_size t s (Q : Z -> Prop) : object_type t -> Q 16 -> yields (fun k => get_size_of_type E k t) s Q [] (fun n _ => n = scalar_width t).
Proof.
  intros Ht Hq.
  set (n := scalar_width t).
  apply (y_ext _ _ (fun k => bind (tick E) (fun _ => bind (k_ev k (T_SIZEOF t)) (fun sz =>
            match sz with T_LIVE_VAR _ a _ _ => load a 8 | _ => ub end)))).
  { intros k. unfold get_size_of_type, bind at 1, get. destruct t; try contradiction; reflexivity. }
  eapply y_bind0; [apply y_tick|]. intros _ s1 _ _. cbn beta.
  eapply y_bind0.
  - apply y_eval1. eapply (y_sizeof t s1 Q [] (fun r _ => r = t) n); [exact Hq|apply y_eval1|].
    + eapply y_pure; [|reflexivity]. intros k. destruct t; try contradiction; reflexivity.
    + intros r s2 _ ->. apply vs_type. unfold n. destruct t; try contradiction; constructor.
  - intros r s2 N (p & -> & O & M). cbn beta iota.
    eapply (y_impl _ _ _ Q Q); [auto| |apply y_load; eapply temp_storage; eauto].
    intros v s3 _ [_ ->]. change (Z.to_nat 8) with 8%nat. rewrite M. apply Z.mod_small. unfold n. destruct t; try contradiction; cbn; try lia.
    destruct c; cbn; lia.
Qed.

(** ** Address and dereference *)

Lemma after_run s e t r s1 (g : knot -> tree -> M tree) Q m P : runs E s e (Ok r s1) -> stack s1 <> [] ->
  (forall k, evaluate_1 E k t = bind (k_ev k e) (g k)) -> yields (fun k => g k r) s1 Q m P ->
  (exists n, Q n /\ out_of_memory E s t n) \/
  exists r' s2, runs E s t (Ok r' s2) /\ only_new E s1 m s2 /\ P r' s2.
Proof.
  intros H Hs Hg Hy. destruct (Hy Hs) as [(n & s' & Hn & H')|(r' & s2 & H' & N & HP)]; [left|right].
  - exists n. split; [exact Hn|]. eapply oom. apply lim_runs; [discriminate|]. apply (lim_ext E _ _ (fun k => bind (k_ev k e) (g k))); [intros k; rewrite Hg; reflexivity|].
    eapply lim_bind; [apply lim_ev, H|exact H'].
  - exists r', s2. split; [|auto]. apply lim_runs; [discriminate|].
    apply (lim_ext E _ _ (fun k => bind (k_ev k e) (g k))); [intros k; rewrite Hg; reflexivity|].
    eapply lim_bind; [apply lim_ev, H|exact H'].
Qed.

Lemma y_addr v s (Q : Z -> Prop) t : Q 16 ->
  yields (fun _ => bind (tick E) (fun _ => bind (make_live_var_addr E) (fun a =>
    bind (store a (le_bytes 8 v)) (fun _ => ret (live_var t a))))) s Q [] (temp_holds s t v).
Proof.
  intros Hq. eapply y_bind0; [apply y_tick|]. intros _ s1 N _. cbn beta.
  eapply (y_impl _ _ _ Q Q); [auto| |apply y_temp_ret, Hq]. intros r s2 _ H. eapply temp_holds_l; eauto.
Qed.

Lemma address s e t a n s1 : runs E s e (Ok (T_LIVE_VAR t a false n) s1) -> stack s1 <> [] ->
  out_of_memory E s (T_ADDR e) 16 \/
  exists p s2, runs E s (T_ADDR e) (Ok (T_LIVE_VAR (D_T_PTR t) p false 0) s2) /\ only_new E s1 [] s2 /\
    new_object E s1 p 16 s2 /\ unsigned_at (mem s2) p 8 = a mod 2 ^ 64.
Proof.
  intros H Hs.
  destruct (after_run s e (T_ADDR e) (T_LIVE_VAR t a false n) s1 (fun k e => match e with
  | T_FN _ _ _ _ => handle_addr_fn_def E e
  | T_LIVE_VAR type va is_array _ =>
      addr <- (if is_array then load va 8 else ret va) ;; tick E ;; a <- make_live_var_addr E ;;
      store a (le_bytes 8 addr) ;; ret (live_var (D_T_PTR type) a)
  | T_LIVE_COMPOUND decl _ base =>
      tick E ;; a <- make_live_var_addr E ;; store a (le_bytes 8 base) ;; ret (live_var (D_T_PTR decl) a)
  | _ => die
  end) (eq 16) [] (temp_holds s1 (D_T_PTR t) a)) as [(k & <- & H')|(r & s2 & H' & N & p & -> & O & M)]; auto.
  - exact (y_addr a s1 (eq 16) (D_T_PTR t) eq_refl).
  - right. exists p, s2. auto.
Qed.

Lemma address_array s e t a n s1 : runs E s e (Ok (T_LIVE_VAR t a true n) s1) -> stack s1 <> [] -> storage E s1 a 8 ->
  out_of_memory E s (T_ADDR e) 16 \/
  exists p s2, runs E s (T_ADDR e) (Ok (T_LIVE_VAR (D_T_PTR t) p false 0) s2) /\ only_new E s1 [] s2 /\
    new_object E s1 p 16 s2 /\ unsigned_at (mem s2) p 8 = unsigned_at (mem s1) a 8.
Proof.
  intros H Hs Ha.
  destruct (after_run s e (T_ADDR e) (T_LIVE_VAR t a true n) s1 (fun k e => match e with
  | T_FN _ _ _ _ => handle_addr_fn_def E e
  | T_LIVE_VAR type va is_array _ =>
      addr <- (if is_array then load va 8 else ret va) ;; tick E ;; a <- make_live_var_addr E ;;
      store a (le_bytes 8 addr) ;; ret (live_var (D_T_PTR type) a)
  | T_LIVE_COMPOUND decl _ base =>
      tick E ;; a <- make_live_var_addr E ;; store a (le_bytes 8 base) ;; ret (live_var (D_T_PTR decl) a)
  | _ => die
  end) (eq 16) [] (temp_holds s1 (D_T_PTR t) (unsigned_at (mem s1) a 8))) as [(k & <- & H')|(r & s2 & H' & N & p & -> & O & M)]; auto.
  - cbn beta iota. eapply y_bind0; [apply (y_load a 8), Ha|]. intros v s2 _ [-> ->]. cbn beta.
    exact (y_addr _ s1 (eq 16) (D_T_PTR t) eq_refl).
  - right. exists p, s2. split; [exact H'|]. split; [exact N|]. split; [exact O|]. rewrite M. apply Z.mod_small.
    change (unsigned_at (mem s1) a 8) with (le_load (mem s1) a 8). exact (le_load_bound (mem s1) a 8).
Qed.

Lemma address_compound s e d ms a s1 : runs E s e (Ok (T_LIVE_COMPOUND d ms a) s1) -> stack s1 <> [] ->
  out_of_memory E s (T_ADDR e) 16 \/
  exists p s2, runs E s (T_ADDR e) (Ok (T_LIVE_VAR (D_T_PTR d) p false 0) s2) /\ only_new E s1 [] s2 /\
    new_object E s1 p 16 s2 /\ unsigned_at (mem s2) p 8 = a mod 2 ^ 64.
Proof.
  intros H Hs.
  destruct (after_run s e (T_ADDR e) (T_LIVE_COMPOUND d ms a) s1 (fun k e => match e with
  | T_FN _ _ _ _ => handle_addr_fn_def E e
  | T_LIVE_VAR type va is_array _ =>
      addr <- (if is_array then load va 8 else ret va) ;; tick E ;; a <- make_live_var_addr E ;;
      store a (le_bytes 8 addr) ;; ret (live_var (D_T_PTR type) a)
  | T_LIVE_COMPOUND decl _ base =>
      tick E ;; a <- make_live_var_addr E ;; store a (le_bytes 8 base) ;; ret (live_var (D_T_PTR decl) a)
  | _ => die
  end) (eq 16) [] (temp_holds s1 (D_T_PTR d) a)) as [(k & <- & H')|(r & s2 & H' & N & p & -> & O & M)]; auto.
  - exact (y_addr a s1 (eq 16) (D_T_PTR d) eq_refl).
  - right. exists p, s2. auto.
Qed.

Lemma object_not_comp s t : object_type t -> is_T_DECL_COMPOUND s t = false.
Proof. destruct t; cbn; tauto. Qed.

Lemma dereference s e t a arr n s1 : runs E s e (Ok (T_LIVE_VAR (D_T_PTR t) a arr n) s1) -> storage E s1 a 8 ->
  is_T_DECL_COMPOUND s1 t = false ->
  runs E s (T_DEREF e) (Ok (T_LIVE_VAR t (unsigned_at (mem s1) a 8) false 0) (after_tick E s1)).
Proof.
  intros H Ha Ht. apply lim_runs; [discriminate|]. cbn [evaluate_1]. unfold eval_deref.
  eapply lim_bind; [apply lim_ev, H|]. apply lim_const. intros k. unfold bind at 1.
  rewrite load_valid by (eapply storage_valid; eauto). unfold bind at 1, get. rewrite Ht. reflexivity.
Qed.

Lemma star_address s e t a n s1 : runs E s e (Ok (T_LIVE_VAR t a false n) s1) -> stack s1 <> [] -> object_type t -> 0 <= a < 2 ^ 64 ->
  out_of_memory E s (T_DEREF (T_ADDR e)) 16 \/
  exists s2, runs E s (T_DEREF (T_ADDR e)) (Ok (T_LIVE_VAR t a false 0) s2) /\ only_new E s1 [] s2.
Proof.
  intros H Hs Ht Ha. destruct (address s e t a n s1 H Hs) as [(s' & H' & N)|(p & s2 & H' & N & O & M)].
  - left. exists s'. split; [|exact N]. apply lim_runs; [discriminate|]. cbn [evaluate_1]. unfold eval_deref.
    apply (lim_bind_fail E _ _ _ _ _ _ (lim_ev E _ _ _ H')). reflexivity.
  - right. exists (after_tick E s2). split.
    + rewrite Z.mod_small in M by lia. rewrite <- M. eapply dereference; [exact H'| |apply object_not_comp, Ht].
      destruct O as (O & _). eapply storage_sub; [exact O|lia|lia].
    + eapply only_new_trans0; [exact N|]. apply tick_new. eapply only_new_nonempty; eauto.
Qed.

(** ** Arrays *)

Lemma y_deref t p s Q : object_type t -> storage E s p 8 ->
  yields (fun k => evaluate_1 E k (T_DEREF (live_var (D_T_PTR t) p))) s Q []
    (fun r s' => r = T_LIVE_VAR t (unsigned_at (mem s) p 8) false 0 /\ only_gc E s s').
Proof.
  intros Ht Hp Hs. right. exists (T_LIVE_VAR t (unsigned_at (mem s) p 8) false 0), (after_tick E s).
  split; [apply runs_lim|split; [apply tick_new, Hs|split; [reflexivity|apply gc_only_tick]]].
  apply (dereference s (live_var (D_T_PTR t) p) t p false 0 s); auto; [|apply object_not_comp, Ht].
  apply lim_runs; [discriminate|]. apply lim_const. reflexivity.
Qed.

Lemma y_element v e rho i t p arr n s (Q : Z -> Prop) : Q 16 ->
  runs E s v (Ok (T_LIVE_VAR (D_T_PTR t) p arr n) s) -> storage E s p 8 -> reads E s rho e -> denote rho e = Some i -> object_type t ->
  yields (fun k => evaluate_1 E k (T_ARRAY_ACCESS v (syntax e))) s Q []
    (fun r _ => r = T_LIVE_VAR t ((unsigned_at (mem s) p 8 + scalar_width t * (Z.abs i mod 2 ^ 64)) mod 2 ^ 64) false 0).
Proof.
  intros Hq Hv Hp Hr Hd Ht Hs. revert Hs. cbn [evaluate_1]. unfold eval_array_access. intros Hs.
  pose proof (only_new_refl s Hs) as N0. revert Hs.
  eapply y_bind0; [exact (y_run s v _ s Q [] Hv N0)|].
  intros r s0 _ [-> ->].
  eapply y_bind0; [apply (y_expr rho e i s Q Hr Hd)|]. intros r s1 N1 [G1 Hn]. cbn beta iota.
  assert (Hp1 : storage E s1 p 8) by (apply G1, Hp).
  assert (Hm1 : mem s1 = mem s) by (destruct G1 as [[] _]; assumption).
  eapply y_bind0; [apply (y_int r i s1 Q Hn)|]. intros r' s2 N2 [G2 ->]. cbn beta iota.
  assert (Hp2 : storage E s2 p 8) by (apply G2, Hp1).
  assert (Hm2 : mem s2 = mem s) by (destruct G2 as [[] _]; congruence).
  eapply y_bind0; [apply (y_load p 8), Hp2|]. intros b s3 _ [-> ->]. change (Z.to_nat 8) with 8%nat. rewrite Hm2.
  eapply y_bind0; [apply (y_size t s2 Q Ht Hq)|]. intros w s4 N4 ->. cbn beta.
  set (addr := unsigned_at (mem s) p 8 + scalar_width t * mpz_get_ui i).
  apply (y_temp _ (le_bytes 8 addr) (fun k a => bind (tick E) (fun _ => k_ev k (T_DEREF (live_var (D_T_PTR t) a))))); [exact Hq|cbn; lia|].
  intros a s5 N5 O5 M5. eapply y_bind0; [apply y_tick|]. intros _ s6 _ ->. cbn beta. apply y_eval1.
  eapply (y_impl _ _ _ Q Q); [auto| |apply y_deref; [exact Ht|apply storage_tick]].
  - intros r7 s7 _ [-> _]. change (mem (after_tick E s5)) with (mem s5). rewrite M5, unsigned_store. reflexivity.
  - destruct O5 as (O5 & _). eapply storage_sub; [exact O5|lia|lia].
Qed.

(** Declaration. *)
Lemma y_array_size rho e z t s (Q : Z -> Prop) : Q 16 -> reads E s rho e -> denote rho e = Some z -> object_type t ->
  yields (fun k => get_array_size E k (syntax e) t) s Q [] (fun n _ => n = (scalar_width t * (Z.abs z mod 2 ^ 64)) mod 2 ^ 64).
Proof.
  intros Hq Hr Hd Ht. unfold get_array_size.
  eapply y_bind0; [apply (y_size t s Q Ht Hq)|]. intros w s1 N1 ->. cbn beta.
  eapply y_bind0; [apply (y_expr rho e z s1 Q (reads_new _ _ _ _ N1 Hr) Hd)|]. intros r s2 N2 [G2 Hn]. cbn beta.
  eapply y_bind0; [apply (y_int r z s2 Q Hn)|]. intros r' s3 N3 [G3 ->]. cbn beta iota.
  apply y_ret. reflexivity.
Qed.

Lemma y_alloc_array x rho e z t s (Q : Z -> Prop) : let n := (scalar_width t * (Z.abs z mod 2 ^ 64)) mod 2 ^ 64 in
  Q 16 -> Q n -> reads E s rho e -> denote rho e = Some z -> object_type t ->
  yields (fun k => alloc_array E k (T_IDENTIFIER x) (syntax e) t) s Q [] (array_made E s t n).
Proof.
  intros n Hq Hn Hr Hd Ht. unfold alloc_array.
  eapply y_bind0; [apply (y_array_size rho e z t s Q Hq Hr Hd Ht)|]. intros n' s1 N1 ->. cbn beta. fold n.
  apply (y_ext _ _ (fun k => bind (bind (malloc E n) (fun a => bind (instantiate_array E (T_IDENTIFIER x) t a n) (fun r =>
      bind (track_alloc E a) (fun _ => ret (a, r))))) (fun p => ret (snd p)))).
  { intros k. unfold bind. destruct (malloc E n s1) as [a s2| | | | | | | |]; auto.
    destruct (instantiate_array E (T_IDENTIFIER x) t a n s2) as [r s3| | | | | | | |]; auto.
    destruct (track_alloc E a s3); reflexivity. }
  eapply y_bind0; [apply (y_alloc _ n (fun _ a => instantiate_array E (T_IDENTIFIER x) t a n) s1 Q []
    (fun base v s' => exists p s2, v = T_LIVE_VAR (D_T_PTR t) p true n /\ unsigned_at (mem s') p 8 = base mod 2 ^ 64 /\
       storage E s2 base n /\ only_new E s1 [] s2 /\ new_object E s2 p 16 s') Hn)|].
  - intros base s2 N2 O2 M2. unfold instantiate_array. eapply y_bind0; [apply y_tick|]. intros _ s3 N3 _. cbn beta iota.
    apply (y_temp _ (le_bytes 8 base) (fun _ a => ret (T_LIVE_VAR (D_T_PTR t) a true n))); [exact Hq|cbn; lia|].
    intros a s4 N4 O4 M4. apply y_ret. exists a, s2. split; [reflexivity|]. split; [rewrite M4; apply unsigned_store|].
    split; [exact (proj1 O2)|]. split; [exact N2|]. eapply new_object_l; eauto.
  - intros [base v] s4 N4 (O4 & s3 & N3 & (p & s2 & E1 & E2 & E3 & E4 & E5) & K & M). cbn [fst snd] in *. subst v. cbn beta. apply y_ret.
    exists p, base. split; [reflexivity|].
    split; [rewrite M, E2; apply Z.mod_small; destruct O4 as (_ & O2' & O2'' & _); 
      assert (0 <= n) by (unfold n; apply Z.mod_pos_bound; lia); lia|].
    split; [eapply new_object_l; [exact N1|exact O4]|].
    split; [eapply new_object_l; [exact N1|]; eapply new_object_l; [exact E4|]; eapply new_object_kept; [exact E5|exact K]|].
    intros Hpos. destruct E5 as (_ & _ & _ & E5). destruct (E5 base n Hpos E3) as [_ O']. lia.
Qed.

Lemma new_here s m s' x : only_new E s m s' -> (forall c cs, stack s = c :: cs -> resolve_id x (c_idmap c) = NULL) ->
  ~ In x (map fst m) -> forall c cs, stack s' = c :: cs -> resolve_id x (c_idmap c) = NULL.
Proof.
  intros ((c0 & cs0 & al & H1 & H2 & _) & _) H Hx c cs Hs. rewrite H2 in Hs. injection Hs as <- <-.
  cbn [scope_plus c_idmap]. rewrite resolve_id_app_other by exact Hx. exact (H c0 cs0 H1).
Qed.

Lemma y_declare_array x rho e z t s (Q : Z -> Prop) : let n := (scalar_width t * (Z.abs z mod 2 ^ 64)) mod 2 ^ 64 in
  Q 16 -> Q n -> reads E s rho e -> denote rho e = Some z -> object_type t ->
  (forall c cs, stack s = c :: cs -> resolve_id x (c_idmap c) = NULL) -> stack s <> [] ->
  (exists n' s', Q n' /\ lim E (fun k => declare_array E k (T_IDENTIFIER x) (syntax e) t) s (NoMemory n' s')) \/
  exists v s', lim E (fun k => declare_array E k (T_IDENTIFIER x) (syntax e) t) s (Ok (T_IDENTIFIER x) s') /\
    only_new E s [(x, v)] s' /\ array_made E s t n v s'.
Proof.
  intros n Hq Hn Hr Hd Ht Hx Hs. unfold declare_array.
  destruct (y_alloc_array x rho e z t s Q Hq Hn Hr Hd Ht Hs) as [(n' & s' & Hn' & H)|(v & s1 & H & N & A)].
  - left. exists n', s'. split; [exact Hn'|]. apply (lim_bind_fail E _ _ _ _ s _ H). reflexivity.
  - right. exists v. assert (Hs1 := only_new_nonempty _ _ _ N). fold n in A.
    destruct (y_map x v s1 Q (new_here _ _ _ _ N Hx ltac:(intros [])) Hs1) as [(n' & s' & Hn' & H')|(u & s2 & H' & N' & M)].
    + exfalso. destruct (stack s1) as [|c cs] eqn:Es; [congruence|]. apply lim_const_inv in H'.
      rewrite (map_identifier_cases E x v s1 c cs Es) in H'. destruct (is_NULL _); discriminate H'.
    + exists s2. split; [eapply lim_bind; [exact H|]; eapply lim_bind; [exact H'|]; apply lim_const; reflexivity|].
      split; [eapply only_new_trans0; eauto|]. destruct A as (p & base & A1 & A2 & A3 & A4 & A5).
      exists p, base. split; [exact A1|]. split; [rewrite M; exact A2|].
      split; [eapply new_object_r; eauto|]. split; [eapply new_object_r; eauto|exact A5].
Qed.

Lemma resolve_ptr_array n x sz : forall t, resolve_ptr_type (stars n (T_ARRAY (T_IDENTIFIER x) sz)) t = (T_ARRAY (T_IDENTIFIER x) sz, pointer_to n t).
Proof.
  assert (H : forall n t, pointer_to n (D_T_PTR t) = D_T_PTR (pointer_to n t))
    by (clear; induction n; intros t; cbn; congruence).
  induction n; intros t; cbn; auto. rewrite IHn, H. reflexivity.
Qed.

Lemma object_scalar t : object_type t -> scalar t.
Proof. destruct t; cbn; tauto. Qed.
Lemma object_pointer n t : object_type t -> object_type (pointer_to n t).
Proof. destruct n; auto. intros _. exact I. Qed.

Lemma hd_array k n x sz t s : object_type (pointer_to n t) ->
  handle_declarator E k (stars n (T_ARRAY (T_IDENTIFIER x) sz)) t s = declare_array E k (T_IDENTIFIER x) sz (pointer_to n t) (after_tick E s).
Proof.
  intros Ht. unfold handle_declarator. rewrite (bind_eq _ _ _ _ _ _ _ (tick_eq E s)), resolve_ptr_array.
  apply object_scalar in Ht as Hsc. cbn [is_NULL]. rewrite scalar_not_null by exact Hsc. cbn [orb].
  unfold bind, get. cbn [is_T_IDENTIFIER]. rewrite andb_false_r. destruct (pointer_to n t); try contradiction; reflexivity.
Qed.

Lemma lim_after A (f g : knot -> M A) s s1 r : (forall k, f k s = g k s1) -> lim E g s1 r -> lim E f s r.
Proof. intros H [n Hn]. exists n. intros m Hm. rewrite H. auto. Qed.

Lemma array_declaration l specs t n x rho e z s c cs : zfind l (statics s) = None -> names_type specs t -> scalar t ->
  object_type (pointer_to n t) -> no_storage_class specs -> stack s = c :: cs -> ~ declares c x -> reads E s rho e -> denote rho e = Some z ->
  let size := (scalar_width (pointer_to n t) * (Z.abs z mod 2 ^ 64)) mod 2 ^ 64 in
  let d := T_DECL l (CHAIN_HEAD (map T_SPEC specs)) (CHAIN_HEAD [stars n (T_ARRAY (T_IDENTIFIER x) (syntax e))]) in
  out_of_memory E s d 16 \/ out_of_memory E s d size \/
  exists v s', runs E s d (Ok (T_IDENTIFIER x) s') /\ only_new E s [(x, v)] s' /\ array_made E s (pointer_to n t) size v s'.
Proof.
  intros Hl Hn Ht Ho Hc Hs Hd Hr He size d.
  assert (Hx : resolve_id x (c_idmap c) = NULL).
  { destruct (resolve_id x (c_idmap c)) eqn:Hz; auto; exfalso; apply Hd, declares_resolve; congruence. }
  set (s2 := after_tick E (after_tick E s)).
  assert (N2 : only_new E s [] s2).
  { apply only_new_gc; [congruence|]. eapply gc_only_trans; apply gc_only_tick. }
  assert (H0 : forall r, r <> Fuel -> lim E (fun k => declare_array E k (T_IDENTIFIER x) (syntax e) (pointer_to n t)) s2 r -> runs E s d r).
  { intros r Hf H. apply lim_runs; [exact Hf|]. eapply lim_decl; eauto. cbn [each_decl foldM].
    apply (lim_ext E _ _ (fun k => k_hd k (stars n (T_ARRAY (T_IDENTIFIER x) (syntax e))) t)).
    { intros k. unfold bind, ret. destruct (k_hd k _ t _); reflexivity. }
    apply lim_hd. eapply lim_after; [|exact H]. intros k. apply hd_array, Ho. }
  assert (Hx2 : forall c cs, stack s2 = c :: cs -> resolve_id x (c_idmap c) = NULL).
  { intros c' cs' H. change (stack s2) with (stack s) in H. rewrite Hs in H. injection H as <- <-. exact Hx. }
  destruct (y_declare_array x rho e z (pointer_to n t) s2 (fun m => m = 16 \/ m = size) (or_introl eq_refl) (or_intror eq_refl)
     (reads_new _ _ _ _ N2 Hr) He Ho Hx2 (only_new_nonempty _ _ _ N2)) as [(m & s' & Hm & H)|(v & s' & H & N & A)].
  - apply H0 in H; [|discriminate]. apply oom in H. destruct Hm as [-> | ->]; auto.
  - right. right. exists v, s'. split; [apply H0; [discriminate|exact H]|]. split; [eapply only_new_trans0; eauto|].
    destruct A as (p & base & A1 & A2 & A3 & A4 & A5). exists p, base. split; [exact A1|split; [exact A2|]].
    split; [eapply new_object_l; eauto|split; [eapply new_object_l; eauto|exact A5]].
Qed.

(** ** Stores through computed addresses *)

(** The left-hand side is the integer variable at [a]. *)
Lemma store_through l lhs rho e v c a n s s1 : plain s l lhs -> runs E s lhs (Ok (T_LIVE_VAR (D_T c) a false n) s1) ->
  only_new E s [] s1 -> integer_type c = true -> storage E s a (width c) -> reads E s rho e -> computed e -> denote rho e = Some v ->
  exists s' w, runs E s (T_ASSIGN l lhs (syntax e)) (Ok (T_INTEGER v) s') /\ clipped v w /\ wraps c w (value_at s' c a) /\
    (forall b, storage E s b 1 -> b < a \/ a + width c <= b -> mem s' b = mem s b) /\
    (forall b m, storage E s b m -> storage E s' b m) /\ (forall y, lookup s' y = lookup s y).
Proof.
  intros Hp Hl N Hc Ha Hr He Hd. destruct (computed_value E rho e s1 He (reads_new _ _ _ _ N Hr)) as (s2 & G & H). rewrite Hd in H.
  assert (Ha2 : storage E s2 a (width c)) by (apply G, N, Ha).
  destruct (assign_int E s l lhs (syntax e) c a false n s1 v s2 Hp Hl Hc H Ha2) as (s3 & w & R & W & C & V).
  exists s3, w. split; [exact R|]. split; [exact C|]. split; [exact V|]. destruct W as [W1 [W2 W3]]. split; [|split].
  - intros b Hb Ho. rewrite W1 by exact Ho. destruct G as [[G1 _ _ _ _ _ _ _ _ _ _ _] _]. rewrite G1. apply N, Hb.
  - intros b m Hb. apply W3. apply storage_mem. apply G, N, Hb.
  - intros y. rewrite (lookup_gc _ _ y W2). change (lookup (set_mem (fun _ => mem s3) s2) y) with (lookup s2 y).
    rewrite (lookup_gc _ _ y (proj1 G)). apply (only_new_lookup _ _ _ _ N). intros [].
Qed.

Lemma unsigned_at_same m m' a n : (forall x, a <= x < a + Z.of_nat n -> m' x = m x) -> unsigned_at m' a n = unsigned_at m a n.
Proof.
  revert a. induction n; intros a H; auto. cbn [unsigned_at]. rewrite IHn, H; auto; [lia|]. intros x Hx. apply H. lia.
Qed.

Lemma value_at_same s s' c a : (forall x, a <= x < a + width c -> mem s' x = mem s x) -> value_at s' c a = value_at s c a.
Proof.
  intros H. unfold value_at. rewrite (unsigned_at_same (mem s) (mem s')); auto. rewrite Z2Nat.id by (destruct c; cbn; lia). exact H.
Qed.

Lemma element_address w k base i : 0 < w -> 0 <= base -> base + w * k <= 2 ^ 64 -> Z.abs i < k ->
  (base + w * (Z.abs i mod 2 ^ 64)) mod 2 ^ 64 = base + w * Z.abs i.
Proof.
  intros Hw Hb Hk Hi. assert (Z.abs i < 2 ^ 64) by nia. rewrite (Z.mod_small (Z.abs i)) by lia. apply Z.mod_small. nia.
Qed.

Lemma element s x rho e i t p arr n k : let w := scalar_width t in let base := unsigned_at (mem s) p 8 in
  stack s <> [] -> means s x (T_LIVE_VAR (D_T_PTR t) p arr n) -> storage E s p 8 -> base + w * k <= 2 ^ 64 ->
  object_type t -> reads E s rho e -> denote rho e = Some i -> Z.abs i < k ->
  out_of_memory E s (T_ARRAY_ACCESS (T_IDENTIFIER x) (syntax e)) 16 \/
  exists s', runs E s (T_ARRAY_ACCESS (T_IDENTIFIER x) (syntax e)) (Ok (T_LIVE_VAR t (base + w * Z.abs i) false 0) s') /\ only_new E s [] s'.
Proof.
  intros w base Hs Hm Hp Hk Ht Hr Hd Hi.
  assert (Hv : runs E s (T_IDENTIFIER x) (Ok (T_LIVE_VAR (D_T_PTR t) p arr n) s)) by (apply (proj2 (innermost _ _ _ _ _)); auto).
  destruct (y_runs s _ (eq 16) [] _ Hs (y_element (T_IDENTIFIER x) e rho i t p arr n s (eq 16) eq_refl Hv Hp Hr Hd Ht))
    as [(m & <- & H)|(r & s' & H & N & ->)]; [left; auto|right].
  exists s'. split; [|exact N]. fold w base in H. rewrite (element_address w k) in H; auto.
  - unfold w. destruct t; try contradiction; cbn; try lia. destruct c; cbn; lia.
  - exact (proj1 (le_load_bound (mem s) p 8)).
Qed.

Lemma element_store s x rho e1 e2 i v c p arr n k l : let base := unsigned_at (mem s) p 8 in
  let lhs := T_ARRAY_ACCESS (T_IDENTIFIER x) (syntax e1) in
  stack s <> [] -> plain s l lhs ->
  means s x (T_LIVE_VAR (D_T_PTR (D_T c)) p arr n) -> storage E s p 8 -> storage E s base (width c * k) -> base + width c * k <= 2 ^ 64 ->
  integer_type c = true -> reads E s rho e1 -> denote rho e1 = Some i -> Z.abs i < k -> reads E s rho e2 -> computed e2 -> denote rho e2 = Some v ->
  out_of_memory E s (T_ASSIGN l lhs (syntax e2)) 16 \/
  exists s' w, runs E s (T_ASSIGN l lhs (syntax e2)) (Ok (T_INTEGER v) s') /\ clipped v w /\
    wraps c w (value_at s' c (base + width c * Z.abs i)) /\
    (forall j, 0 <= j < k -> j <> Z.abs i -> value_at s' c (base + width c * j) = value_at s c (base + width c * j)) /\
    (forall b, storage E s b 1 -> b < base \/ base + width c * k <= b -> mem s' b = mem s b) /\
    (forall b m, storage E s b m -> storage E s' b m) /\ (forall y, lookup s' y = lookup s y).
Proof.
  intros base lhs Hs Hpl Hm Hp Hb Hk Hc Hr1 Hd1 Hi Hr2 He2 Hd2.
  assert (Hw : 0 < width c) by (destruct c; cbn; lia).
  destruct (element s x rho e1 i (D_T c) p arr n k Hs Hm Hp Hk I Hr1 Hd1 Hi) as [(s' & H & N)|(s1 & H & N)].
  - left. exists s'. split; [|exact N]. apply lim_runs; [discriminate|]. cbn [evaluate_1]. unfold eval_assign.
    eapply lim_bind; [apply lim_const; reflexivity|]. cbn beta. unfold assign_lhs.
    assert (Hq : match zfind l (ov_asn s) with Some v => v | None => lhs end = lhs) by (destruct Hpl as [-> | ->]; reflexivity).
    rewrite Hq. apply (lim_bind_fail E _ _ _ _ _ _ (lim_ev E _ _ _ H)). reflexivity.
  - right. fold lhs base in H. cbn [scalar_width] in H. set (a := base + width c * Z.abs i) in *.
    assert (Ha : storage E s a (width c)) by (eapply storage_sub; [exact Hb|unfold a; nia|unfold a; nia]).
    destruct (store_through l lhs rho e2 v c a 0 s s1 Hpl H N Hc Ha Hr2 He2 Hd2) as (s' & w & R & C & V & M & S & L).
    exists s', w. split; [exact R|]. split; [exact C|]. split; [exact V|]. split; [|split; [|auto]].
    + intros j Hj Hne. apply value_at_same. intros y Hy. apply M.
      * eapply storage_one; [exact Hb|nia].
      * unfold a. assert (j < Z.abs i \/ Z.abs i < j) by lia. nia.
    + intros b Hb' Ho. apply M; auto. unfold a. nia.
Qed.

Lemma star_address_store s x rho e v c a n l : let lhs := T_DEREF (T_ADDR (T_IDENTIFIER x)) in
  stack s <> [] -> plain s l lhs -> means s x (T_LIVE_VAR (D_T c) a false n) -> integer_type c = true ->
  storage E s a (width c) -> 0 <= a < 2 ^ 64 -> reads E s rho e -> computed e -> denote rho e = Some v ->
  out_of_memory E s (T_ASSIGN l lhs (syntax e)) 16 \/
  exists s' w, runs E s (T_ASSIGN l lhs (syntax e)) (Ok (T_INTEGER v) s') /\ clipped v w /\ wraps c w (value_at s' c a) /\
    (forall b, storage E s b 1 -> b < a \/ a + width c <= b -> mem s' b = mem s b) /\
    (forall b m, storage E s b m -> storage E s' b m) /\ (forall y, lookup s' y = lookup s y).
Proof.
  intros lhs Hs Hpl Hm Hc Ha Hr64 Hr He Hd.
  assert (Hv : runs E s (T_IDENTIFIER x) (Ok (T_LIVE_VAR (D_T c) a false n) s)) by (apply (proj2 (innermost _ _ _ _ _)); auto).
  destruct (star_address s (T_IDENTIFIER x) (D_T c) a n s Hv Hs I Hr64) as [(s' & H & N)|(s1 & H & N)].
  - left. exists s'. split; [|exact N]. apply lim_runs; [discriminate|]. cbn [evaluate_1]. unfold eval_assign.
    eapply lim_bind; [apply lim_const; reflexivity|]. cbn beta. unfold assign_lhs.
    assert (Hq : match zfind l (ov_asn s) with Some v => v | None => lhs end = lhs) by (destruct Hpl as [-> | ->]; reflexivity).
    rewrite Hq. apply (lim_bind_fail E _ _ _ _ _ _ (lim_ev E _ _ _ H)). reflexivity.
  - right. exact (store_through l lhs rho e v c a 0 s s1 Hpl H N Hc Ha Hr He Hd).
Qed.

Lemma size_of_value s e r n s1 : runs E s e (Ok r s1) -> stack s1 <> [] -> value_size s1 r n ->
  out_of_memory E s (T_SIZEOF e) 16 \/
  exists p s2, runs E s (T_SIZEOF e) (Ok (T_LIVE_VAR (D_T D_T_ULONG) p false 0) s2) /\ only_new E s1 [] s2 /\
    new_object E s1 p 16 s2 /\ unsigned_at (mem s2) p 8 = n mod 2 ^ 64.
Proof.
  intros H Hs Hn.
  destruct (after_run s e (T_SIZEOF e) r s1 sizeof_rest (eq 16) [] (temp_holds s1 (D_T D_T_ULONG) n) H Hs) as [(k & <- & H')|(r' & s2 & H' & N & p & -> & O & M)].
  - reflexivity.
  - apply y_sizeof_rest; auto.
  - left. auto.
  - right. exists p, s2. auto.
Qed.

End New.
