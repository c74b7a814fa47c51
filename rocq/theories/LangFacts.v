(** Facts about the model of src/lang.cpp. *)
From Coq Require Import String List Bool Arith Lia DecimalString DecimalNat DecimalFacts Ascii.
From Verif Require Import Lang SpecLang.
Import ListNotations.
Local Open Scope string_scope.
Local Open Scope list_scope.

(** * Names of fields *)
Lemma app_nil_r_s s : (s ++ "")%string = s.
Proof. induction s; cbn; congruence. Qed.
Lemma app_assoc_s a b c : ((a ++ b) ++ c)%string = (a ++ (b ++ c))%string.
Proof. induction a; cbn; congruence. Qed.
Lemma app_inj_s a b c : (a ++ b)%string = (a ++ c)%string -> b = c.
Proof. induction a; cbn; intros H; [exact H|]. inversion H; auto. Qed.
Lemma app_split a b c d : (a ++ b = c ++ d)%string -> (exists e, a = c ++ e /\ d = e ++ b)%string \/ (exists e, c = a ++ e /\ b = e ++ d)%string.
Proof.
  revert c. induction a as [|x a IH]; intros c H.
  - right. exists c. auto.
  - destruct c as [|y c]; [left; exists (String x a); auto|]. cbn in H. inversion H; subst.
    destruct (IH c H2) as [(e & -> & ->)|(e & -> & ->)]; [left|right]; exists e; auto.
Qed.
Lemma to_string_inj n m : to_string n = to_string m -> n = m.
Proof.
  unfold to_string. intros H. apply (f_equal NilEmpty.uint_of_string) in H. rewrite !NilEmpty.usu in H.
  inversion H as [E]. apply (f_equal Nat.of_uint) in E. now rewrite !Unsigned.of_to in E.
Qed.
Lemma string_of_uint_digits u : Forall (fun c => (48 <= nat_of_ascii c <= 57)%nat) (list_ascii_of_string (NilEmpty.string_of_uint u)).
Proof. induction u; cbn; constructor; auto; cbn; lia. Qed.
Lemma list_app_s a b : list_ascii_of_string (a ++ b)%string = list_ascii_of_string a ++ list_ascii_of_string b.
Proof. induction a; cbn; congruence. Qed.
Lemma digits_part e b n : to_string n = (e ++ b)%string -> e <> "" -> digits e.
Proof.
  intros H E. split; auto. assert (D := string_of_uint_digits (Nat.to_uint n)). fold (to_string n) in D. rewrite H, list_app_s in D.
  apply Forall_app in D. tauto.
Qed.
Lemma names_differ b c n m :
  (forall s, digits s -> b <> (c ++ s)%string) -> (forall s, digits s -> c <> (b ++ s)%string) ->
  (b ++ to_string n = c ++ to_string m)%string -> b = c /\ n = m.
Proof.
  intros H1 H2 H. assert (b = c) as ->.
  { destruct (app_split _ _ _ _ H) as [(e & -> & E)|(e & -> & E)].
    - destruct (string_dec e "") as [->|N]; [apply app_nil_r_s|]. destruct (H1 e); auto. eapply digits_part; eauto.
    - destruct (string_dec e "") as [->|N]; [symmetry; apply app_nil_r_s|]. destruct (H2 e); auto. eapply digits_part; eauto. }
  split; auto. apply app_inj_s in H. now apply to_string_inj.
Qed.

(** * Maps *)
Lemma map_at_in {A} k (m : list (string * A)) v : map_at k m = Some v -> In (k, v) m.
Proof.
  unfold map_at. destruct (find _ m) as [[k' v']|] eqn:F; [|discriminate]. intros [= ->].
  apply find_some in F as [F E]. apply String.eqb_eq in E. cbn in E. now subst.
Qed.
Lemma map_at_none {A} k (m : list (string * A)) : map_at k m = None <-> ~ In k (map fst m).
Proof.
  unfold map_at. induction m as [|[k' v'] m IH]; cbn; [tauto|].
  destruct (String.eqb_spec k' k) as [->|N]; [split; [discriminate|]; intros H; destruct H; auto|].
  rewrite IH. tauto.
Qed.
Lemma map_at_app {A} k (m m' : list (string * A)) : map_at k (m ++ m') = match map_at k m with Some v => Some v | None => map_at k m' end.
Proof.
  unfold map_at. induction m as [|[k' v'] m IH]; cbn; auto. destruct (k' =? k); auto.
Qed.
Lemma map_insert_at {A} k (v : A) m k' : map_at k' (map_insert k v m) =
  match map_at k' m with Some w => Some w | None => if k =? k' then Some v else None end.
Proof.
  unfold map_insert. destruct (existsb (fun e => fst e =? k) m) eqn:E.
  - destruct (map_at k' m) eqn:F; auto. destruct (String.eqb_spec k k') as [->|N]; auto.
    apply map_at_none in F. apply existsb_exists in E as ((k2 & v2) & I & E). apply String.eqb_eq in E. cbn in E. subst.
    destruct F. now apply (in_map fst) in I.
  - rewrite map_at_app. destruct (map_at k' m); auto. unfold map_at; cbn. destruct (k =? k'); auto.
Qed.

(** * Pools *)
Definition mk (b t : string) (k : nat) : inst := mkinst (b ++ to_string k) (mkbase t b).
Definition mkp (b t : string) (n : nat) : pool := mkpool (mkbase t b) (map (mk b t) (seq 0 n)).
Definition pools (bs : list (string * string)) (sz : string -> nat) : list (string * pool) := map (fun e => (fst e, mkp (fst e) (snd e) (sz (fst e)))) bs.
Definition curs (b t : string) (rk sz : nat) : list inst := map (mk b t) (seq rk (sz - rk)).
Definition allocs (bs : list (string * string)) (rk sz : string -> nat) : list (string * list inst) :=
  map (fun e => (fst e, curs (fst e) (snd e) (rk (fst e)) (sz (fst e)))) bs.
Definition upd (f : string -> nat) (b : string) (n : nat) (x : string) : nat := if x =? b then n else f x.

Lemma alloc_mk b t rk sz : rk <= sz ->
  allocator_alloc (curs b t rk sz) (mkp b t sz) = (mk b t rk, curs b t (S rk) (max sz (S rk)), mkp b t (max sz (S rk))).
Proof.
  intros H. unfold curs. destruct (Nat.eq_dec rk sz) as [->|N].
  - rewrite Nat.sub_diag. cbn [seq map allocator_alloc]. unfold pool_alloc, mkp. cbn [pool_ baseType_ name].
    rewrite map_length, seq_length. replace (max sz (S sz)) with (S sz) by lia. rewrite Nat.sub_diag, (seq_S sz 0), map_app. reflexivity.
  - replace (sz - rk) with (S (sz - S rk)) by lia. cbn [seq map allocator_alloc]. now replace (max sz (S rk)) with sz by lia.
Qed.
Lemma at_map {A B} (g : string * A -> B) k (m : list (string * A)) t : map_at k m = Some t -> map_at k (map (fun e => (fst e, g e)) m) = Some (g (k, t)).
Proof.
  unfold map_at. induction m as [|[k' v'] m IH]; cbn; [discriminate|]. destruct (String.eqb_spec k' k) as [->|N]; auto. now intros [= ->].
Qed.
Lemma at_map_none {A B} (g : string * A -> B) k (m : list (string * A)) : map_at k m = None -> map_at k (map (fun e => (fst e, g e)) m) = None.
Proof.
  rewrite !map_at_none, map_map. cbn. auto.
Qed.
Lemma set_map {A B} (g g' : string * A -> B) k (m : list (string * A)) v :
  (forall e, In e m -> fst e <> k -> g e = g' e) -> (forall e, In e m -> fst e = k -> g' e = v) ->
  map_set k v (map (fun e => (fst e, g e)) m) = map (fun e => (fst e, g' e)) m.
Proof.
  intros H1 H2. unfold map_set. rewrite map_map. apply map_ext_in. intros e I. cbn.
  destruct (String.eqb_spec (fst e) k) as [E|N]; [rewrite H2 by auto; congruence|]. now rewrite H1.
Qed.
Lemma at_unique {A} (m : list (string * A)) k t t' : NoDup (map fst m) -> map_at k m = Some t -> In (k, t') m -> t' = t.
Proof.
  intros N H I. apply map_at_in in H. apply NoDup_map_inv in N as N'. 
  destruct (in_split _ _ H) as (l1 & l2 & ->). rewrite map_app in N. cbn in N. apply NoDup_remove_2 in N.
  apply in_app_or in I as [I|[I|I]].
  - destruct N. apply in_or_app. left. now apply (in_map fst) in I.
  - congruence.
  - destruct N. apply in_or_app. right. now apply (in_map fst) in I.
Qed.
Lemma at_pools bs sz b t : map_at b bs = Some t -> map_at b (pools bs sz) = Some (mkp b t (sz b)).
Proof. apply (at_map (fun e => mkp (fst e) (snd e) (sz (fst e)))). Qed.
Lemma at_allocs bs rk sz b t : map_at b bs = Some t -> map_at b (allocs bs rk sz) = Some (curs b t (rk b) (sz b)).
Proof. apply (at_map (fun e => curs (fst e) (snd e) (rk (fst e)) (sz (fst e)))). Qed.
Lemma set_pools bs sz b t n : NoDup (map fst bs) -> map_at b bs = Some t -> map_set b (mkp b t n) (pools bs sz) = pools bs (upd sz b n).
Proof.
  intros N H. apply set_map; intros [k v] I E; cbn in *; unfold upd.
  - now rewrite (proj2 (String.eqb_neq _ _) E).
  - subst. rewrite String.eqb_refl. now rewrite (at_unique _ _ _ _ N H I).
Qed.
Lemma set_allocs bs rk sz b t r n : NoDup (map fst bs) -> map_at b bs = Some t ->
  map_set b (curs b t r n) (allocs bs rk sz) = allocs bs (upd rk b r) (upd sz b n).
Proof.
  intros N H. apply set_map; intros [k v] I E; cbn in *; unfold upd.
  - now rewrite (proj2 (String.eqb_neq _ _) E).
  - subst. rewrite String.eqb_refl. now rewrite (at_unique _ _ _ _ N H I).
Qed.

(** * The properties of a node type *)
(** How many properties of a base type (None: trees) a list has. *)
Definition isb (o : option string) (p : prop) : bool :=
  match o, p with None, Tree _ => true | Some b, Of _ c => b =? c | _, _ => false end.
Definition cnt (o : option string) (ps : list prop) : nat := List.length (filter (isb o) ps).
Definition pbase (p : prop) : option string := match p with Tree _ => None | Of _ b => Some b end.
Definition pinst (bs : list (string * string)) (before : list prop) (p : prop) : inst :=
  match p with
  | Tree _ => mk "t" "tree" (cnt None before)
  | Of _ b => mk b (match map_at b bs with Some t => t | None => "" end) (cnt (Some b) before)
  end.
Fixpoint pmap (bs : list (string * string)) (before ps : list prop) (m : list (string * inst)) : list (string * inst) :=
  match ps with [] => m | p :: ps => pmap bs (before ++ [p]) ps (map_insert (pname p) (pinst bs before p) m) end.
Definition declb (bs : list (string * string)) (p : prop) : bool :=
  match p with Tree _ => true | Of _ b => match map_at b bs with Some _ => true | None => false end end.

Lemma cnt_app o a b : cnt o (a ++ b) = cnt o a + cnt o b.
Proof. unfold cnt. now rewrite filter_app, app_length. Qed.
Lemma cnt_one x n b : cnt (Some x) [Of n b] = if x =? b then 1 else 0.
Proof. unfold cnt. cbn. destruct (x =? b); reflexivity. Qed.
Lemma pools_ext bs f g : (forall x, f x = g x) -> pools bs f = pools bs g.
Proof. intros H. apply map_ext. intros e. now rewrite H. Qed.
Lemma allocs_ext bs f g f' g' : (forall x, f x = f' x) -> (forall x, g x = g' x) -> allocs bs f g = allocs bs f' g'.
Proof. intros H H'. apply map_ext. intros e. now rewrite H, H'. Qed.

Lemma prop_loop_spec bs rest ps : NoDup (map fst bs) -> forall before sz tn m,
  prop_loop (flat_map ptext ps ++ RP :: rest)
    (pools bs (fun b => max (sz b) (cnt (Some b) before))) (mkp "t" "tree" (max tn (cnt None before)))
    (allocs bs (fun b => cnt (Some b) before) (fun b => max (sz b) (cnt (Some b) before)))
    (curs "t" "tree" (cnt None before) (max tn (cnt None before))) m =
  if forallb (declb bs) ps then
    Some (rest, pools bs (fun b => max (sz b) (cnt (Some b) (before ++ ps))), mkp "t" "tree" (max tn (cnt None (before ++ ps))), pmap bs before ps m)
  else None.
Proof.
  intros N. induction ps as [|p ps IH]; intros before sz tn m.
  - cbn. rewrite List.app_nil_r. reflexivity.
  - destruct p as [n|n b]; cbn [flat_map ptext app prop_loop].
    + rewrite alloc_mk by lia. cbn [forallb declb andb pmap pname pinst].
      replace (before ++ Tree n :: ps) with ((before ++ [Tree n]) ++ ps) by (rewrite <- List.app_assoc; reflexivity).
      rewrite <- IH. f_equal.
      * apply pools_ext. intros x. rewrite cnt_app. cbn. lia.
      * rewrite cnt_app. f_equal. cbn. lia.
      * apply allocs_ext; intros x; rewrite cnt_app; cbn; lia.
      * rewrite cnt_app. f_equal; cbn; lia.
    + cbn [forallb declb pmap pname pinst]. destruct (map_at b bs) as [t|] eqn:E.
      * rewrite (at_allocs _ _ _ _ _ E), (at_pools _ _ _ _ E), alloc_mk by lia.
        rewrite (set_pools _ _ _ _ _ N E), (set_allocs _ _ _ _ _ _ _ N E). cbn [andb].
        replace (before ++ Of n b :: ps) with ((before ++ [Of n b]) ++ ps) by (rewrite <- List.app_assoc; reflexivity).
        rewrite <- IH. f_equal.
        -- apply pools_ext. intros x. rewrite cnt_app, cnt_one. unfold upd. destruct (String.eqb_spec x b) as [->|M]; lia.
        -- rewrite cnt_app. f_equal. cbn. lia.
        -- apply allocs_ext; intros x; rewrite cnt_app, cnt_one; unfold upd.
           ++ destruct (String.eqb_spec x b) as [->|M]; lia.
           ++ destruct (String.eqb_spec x b) as [->|M]; lia.
        -- rewrite cnt_app. f_equal; cbn; lia.
      * unfold allocs. rewrite (at_map_none _ _ _ E). reflexivity.
Qed.

(** * Whole descriptions *)
Definition ends (rest : list token) : Prop := match rest with [] => True | DEFTYPE :: _ => True | _ => False end.
Record abs := mkabs { bs : list (string * string); ns : list (list prop); tt : list (string * list (string * inst)) }.
Fixpoint size (o : option string) (ns : list (list prop)) : nat := match ns with [] => 0 | ps :: ns => max (cnt o ps) (size o ns) end.
Definition st (x : abs) : lang := mklang (pools (bs x) (fun b => size (Some b) (ns x))) (mkp "t" "tree" (size None (ns x))) (tt x).
Definition good (x : abs) : Prop := NoDup (map fst (bs x)) /\ forall ps p, In ps (ns x) -> In p ps -> declb (bs x) p = true.
Definition sem_node (n : string) (ps : list prop) (x : abs) : option abs :=
  if forallb (declb (bs x)) ps then Some (mkabs (bs x) (ns x ++ [ps]) (tt x ++ [(n, pmap (bs x) [] ps [])])) else None.
Definition ins (bs : list (string * string)) (l : list (string * string)) : list (string * string) := fold_left (fun m e => map_insert (fst e) (snd e) m) l bs.
Definition sem1 (d : def) (x : abs) : option abs :=
  match d with
  | Bases l => Some (mkabs (ins (bs x) l) (ns x) (tt x))
  | Node n _ o => sem_node n (listed o) x
  | CNode n _ _ _ _ _ o => sem_node n (listed o) x
  | _ => Some x
  end.
Fixpoint sem (d : list def) (x : abs) : option abs :=
  match d with [] => Some x | e :: d => match sem1 e x with Some x => sem d x | None => None end end.

Lemma size_app o a b : size o (a ++ b) = max (size o a) (size o b).
Proof. induction a; cbn; [reflexivity|]. rewrite IHa. lia. Qed.
Lemma insert_fst {A} k (v : A) m : map fst (map_insert k v m) = if existsb (fun e => fst e =? k) m then map fst m else map fst m ++ [k].
Proof. unfold map_insert. destruct existsb; auto. now rewrite map_app. Qed.
Lemma insert_nodup {A} k (v : A) m : NoDup (map fst m) -> NoDup (map fst (map_insert k v m)).
Proof.
  intros N. rewrite insert_fst. destruct existsb eqn:E; auto.
  apply NoDup_rev in N. rewrite <- (rev_involutive (map fst m)), <- (rev_involutive ([k])), <- rev_app_distr. apply NoDup_rev. cbn. constructor; auto.
  rewrite <- in_rev. intros I. apply in_map_iff in I as (e & F & I).
  assert (existsb (fun e => fst e =? k) m = true); [|congruence]. apply existsb_exists. exists e. split; auto. now apply String.eqb_eq.
Qed.
Lemma declb_insert k t b p : declb b p = true -> declb (map_insert k t b) p = true.
Proof. destruct p as [|n c]; cbn; auto. rewrite map_insert_at. now destruct (map_at c b). Qed.
Lemma size_undeclared b nss bss : (forall ps p, In ps nss -> In p ps -> declb bss p = true) -> map_at b bss = None -> size (Some b) nss = 0.
Proof.
  intros H N. induction nss as [|ps nss IH]; cbn; auto. rewrite IH by (intros; eapply H; eauto; now right).
  assert (cnt (Some b) ps = 0); [|lia]. unfold cnt. assert (H' := fun p => H ps p (or_introl eq_refl)). clear IH H.
  induction ps as [|p ps IH]; cbn; auto. destruct p as [n|n c]; cbn; [apply IH; intros; apply H'; now right|].
  destruct (String.eqb_spec b c) as [->|]; [|apply IH; intros; apply H'; now right].
  specialize (H' (Of n c) (or_introl eq_refl)). cbn in H'. now rewrite N in H'.
Qed.
Lemma existsb_map {A B} (f : A -> B) g l : existsb g (map f l) = existsb (fun x => g (f x)) l.
Proof. induction l; cbn; congruence. Qed.
Lemma existsb_none {A} k (m : list (string * A)) : existsb (fun e => fst e =? k) m = false -> map_at k m = None.
Proof.
  intros E. apply map_at_none. intros I. apply in_map_iff in I as (e & F & I).
  assert (existsb (fun e => fst e =? k) m = true); [|congruence]. apply existsb_exists. exists e. split; auto. now apply String.eqb_eq.
Qed.
Lemma st_insert n t x : good x -> mklang (map_insert n (mkpool (mkbase t n) []) (baseTypePools (st x))) (treePool (st x)) (treeTypes (st x)) =
  st (mkabs (map_insert n t (bs x)) (ns x) (tt x)).
Proof.
  intros [N G]. unfold st. cbn. f_equal. unfold map_insert, pools. rewrite existsb_map. cbn.
  destruct (existsb (fun e => fst e =? n) (bs x)) eqn:E; [reflexivity|].
  rewrite map_app. cbn. rewrite (size_undeclared n _ _ G (existsb_none _ _ E)). reflexivity.
Qed.
Lemma good_insert n t x : good x -> good (mkabs (map_insert n t (bs x)) (ns x) (tt x)).
Proof. intros [N G]. split; cbn; [now apply insert_nodup|]. intros. apply declb_insert. eauto. Qed.
Lemma defbase_spec rest l : forall x, good x ->
  handle_defbasetype (flat_map (fun e => [LP; IDENTIFIER (fst e); STRING (snd e); RP]) l ++ RP :: rest) (st x) = Some (rest, st (mkabs (ins (bs x) l) (ns x) (tt x))) /\
  good (mkabs (ins (bs x) l) (ns x) (tt x)).
Proof.
  induction l as [|[n t] l IH]; intros x G.
  - cbn. split; [now destruct x|now destruct x].
  - cbn [flat_map app handle_defbasetype fst snd]. rewrite st_insert by auto. apply (IH _ (good_insert n t x G)).
Qed.

Lemma props_spec prefix rest ps x : good x -> 
  parsePropList (STRING prefix :: LP :: flat_map ptext ps ++ RP :: rest) (st x) =
  if forallb (declb (bs x)) ps then Some (rest, mklang (pools (bs x) (fun b => size (Some b) (ns x ++ [ps]))) (mkp "t" "tree" (size None (ns x ++ [ps]))) (tt x), pmap (bs x) [] ps []) else None.
Proof.
  intros [N G]. unfold parsePropList.
  assert (P := prop_loop_spec (bs x) rest ps N [] (fun b => size (Some b) (ns x)) (size None (ns x)) []).
  match goal with |- context [prop_loop ?t ?p ?tp ?al ?tr ?m] => match type of P with ?g = _ => assert (Q : prop_loop t p tp al tr m = g) end end.
  { f_equal.
    - apply pools_ext. intros b. cbn. lia.
    - cbn. f_equal. lia.
    - unfold getAllocator, allocs, st, pools. cbn. rewrite map_map. apply map_ext. intros e. cbn. unfold curs.
      replace (max (size (Some (fst e)) (ns x)) 0) with (size (Some (fst e)) (ns x)) by lia. now rewrite Nat.sub_0_r.
    - unfold getAllocator, curs. cbn. replace (max (size None (ns x)) 0) with (size None (ns x)) by lia. now rewrite Nat.sub_0_r. }
  rewrite Q, P. destruct forallb; [|reflexivity]. f_equal. f_equal. f_equal. cbn [st treeTypes]. f_equal.
  - apply pools_ext. intros b. rewrite size_app. cbn [size app]. lia.
  - f_equal. rewrite size_app. cbn [size app]. lia.
Qed.
Lemma type_end_spec n o rest x : good x ->
  match sem_node n (listed o) x with
  | Some y => type_end n (plist o ++ RP :: rest) (st x) = Some (rest, st y) /\ good y
  | None => type_end n (plist o ++ RP :: rest) (st x) = None
  end.
Proof.
  intros G. unfold sem_node. destruct o as [[prefix ps]|]; cbn [listed].
  - cbn [plist app]. unfold type_end. replace ((flat_map ptext ps ++ [RP]) ++ RP :: rest) with (flat_map ptext ps ++ RP :: (RP :: rest)) by (rewrite <- List.app_assoc; reflexivity).
    rewrite props_spec by auto. destruct (forallb (declb (bs x)) ps) eqn:F; [|reflexivity]. split; [reflexivity|].
    destruct G as [N G]. split; [exact N|]. cbn. intros qs p I. apply in_app_or in I as [I|[<-|[]]]; eauto. 
    intros J. rewrite forallb_forall in F. auto.
  - cbn [listed forallb plist app type_end]. split.
    + unfold st. cbn [bs ns tt pmap baseTypePools treePool treeTypes]. f_equal. f_equal.
      replace (size None (ns x ++ [[]])) with (size None (ns x)) by (rewrite size_app; cbn [size cnt filter List.length]; lia).
      f_equal. apply pools_ext. intros b. rewrite size_app. cbn [size cnt filter List.length]. lia.
    + destruct G as [N G]. split; [exact N|]. cbn. intros qs p I. apply in_app_or in I as [I|[<-|[]]]; eauto.
Qed.
Lemma spec_list s rest : handle_specifier_list (map IDENTIFIER s ++ RP :: rest) = Some rest.
Proof. induction s; cbn; auto. Qed.
Lemma spec_lists rest l : forall k, specifier_lists (S (List.length l) + k) (flat_map (fun s => LP :: map IDENTIFIER s ++ [RP]) l ++ RP :: rest) = Some rest.
Proof.
  induction l as [|s l IH]; intros k; [reflexivity|]. cbn [flat_map].
  replace ((LP :: map IDENTIFIER s ++ [RP]) ++ flat_map (fun s => LP :: map IDENTIFIER s ++ [RP]) l) with
    (LP :: map IDENTIFIER s ++ RP :: flat_map (fun s => LP :: map IDENTIFIER s ++ [RP]) l) by (cbn; now rewrite <- List.app_assoc).
  cbn [app]. change (S (List.length (s :: l)) + k) with (S (S (List.length l) + k)). cbn [specifier_lists].
  rewrite <- List.app_assoc. cbn [app]. rewrite spec_list. apply IH.
Qed.
Lemma lang_parse_1 d rest x k : good x ->
  match sem1 d x with
  | Some y => lang_parse (S k) (dtext d ++ rest) (st x) = lang_parse k rest (st y) /\ good y
  | None => lang_parse (S k) (dtext d ++ rest) (st x) = None
  end.
Proof.
  intros G. destruct d as [l|n f o|n f c g m ffi o|n l|n|n]; cbn [sem1 dtext].
  - destruct (defbase_spec rest l x G) as [H G']. split; [|exact G']. cbn [app lang_parse]. rewrite <- List.app_assoc. cbn [app]. now rewrite H.
  - assert (H := type_end_spec n o rest x G). cbn [app lang_parse]. rewrite <- List.app_assoc. cbn [app handle_deftype].
    destruct (sem_node n (listed o) x) as [y|]; [destruct H as [H G']; split; auto|]; now rewrite H.
  - assert (H := type_end_spec n o rest x G). cbn [app lang_parse]. rewrite <- List.app_assoc. cbn [app handle_defctype].
    destruct (sem_node n (listed o) x) as [y|]; [destruct H as [H G']; split; auto|]; now rewrite H.
  - split; [|exact G]. cbn [app lang_parse]. rewrite <- List.app_assoc. cbn [app handle_defspecifier].
    assert (L : exists k, S (List.length (flat_map (fun s => LP :: map IDENTIFIER s ++ [RP]) l ++ RP :: RP :: rest)) = S (List.length l) + k).
    { exists (List.length (flat_map (fun s => LP :: map IDENTIFIER s ++ [RP]) l ++ RP :: RP :: rest) - List.length l).
      assert (List.length l <= List.length (flat_map (fun s => LP :: map IDENTIFIER s ++ [RP]) l)) by (clear; induction l; cbn; [lia|]; rewrite app_length; lia).
      rewrite app_length. lia. }
    unfold handle_defspecifier. destruct L as [k' ->]. now rewrite spec_lists.
  - split; [reflexivity|exact G].
  - split; [reflexivity|exact G].
Qed.
Lemma lang_parse_spec d : forall rest x k, good x ->
  match sem d x with
  | Some y => lang_parse (List.length d + k) (text d ++ rest) (st x) = lang_parse k rest (st y) /\ good y
  | None => lang_parse (List.length d + k) (text d ++ rest) (st x) = None
  end.
Proof.
  induction d as [|e d IH]; intros rest x k G; cbn [sem text flat_map]; [split; auto|].
  assert (H := lang_parse_1 e (text d ++ rest) x (List.length d + k) G). rewrite <- List.app_assoc. cbn [List.length plus]. change (flat_map dtext d) with (text d).
  destruct (sem1 e x) as [y|]; [|exact H]. destruct H as [-> G']. apply IH. exact G'.
Qed.
Definition abs0 : abs := mkabs [] [] [].
Lemma good0 : good abs0.
Proof. split; [constructor|intros ? ? []]. Qed.
Lemma dtext_nonempty d : 1 <= List.length (dtext d).
Proof. destruct d; cbn; lia. Qed.
Lemma text_length d : List.length d <= List.length (text d).
Proof. induction d; cbn; [lia|]. rewrite app_length. assert (H := dtext_nonempty a). unfold text in IHd. lia. Qed.
Lemma lang_read_spec d rest : ends rest ->
  match sem d abs0 with
  | Some y => lang_read (text d ++ rest) = Some (st y) /\ good y
  | None => lang_read (text d ++ rest) = None
  end.
Proof.
  intros E. unfold lang_read. assert (L := text_length d).
  assert (exists k, S (List.length (text d ++ rest)) = List.length d + S k) as [k ->].
  { exists (List.length (text d ++ rest) - List.length d). rewrite app_length. lia. }
  assert (H := lang_parse_spec d rest abs0 (S k) good0). destruct (sem d abs0) as [y|]; [|exact H]. destruct H as [H G]. split; [|exact G].
  change lang0 with (st abs0). rewrite H. destruct rest as [|[] rest]; try destruct E; reflexivity.
Qed.
