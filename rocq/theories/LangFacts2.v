(** Facts about the model of src/lang.cpp: what is accepted, and the fields. *)
From Coq Require Import String List Bool Arith Lia Ascii FinFun.
From Verif Require Import Lang SpecLang LangFacts.
Import ListNotations.
Local Open Scope string_scope.
Local Open Scope list_scope.

(** * What is accepted is a description *)
Lemma prop_loop_text k : forall toks, List.length toks <= k -> forall p tp al tr m rest p' tp' m',
  prop_loop toks p tp al tr m = Some (rest, p', tp', m') -> exists ps, toks = flat_map ptext ps ++ RP :: rest.
Proof.
  induction k as [|k IH]; intros toks L p tp al tr m rest p' tp' m' H.
  - destruct toks; [discriminate H|cbn in L; lia].
  - destruct toks as [|[] toks]; try discriminate H.
    + destruct toks as [|[] toks]; try discriminate H. destruct toks as [|[] toks]; try discriminate H. destruct toks as [|[] toks]; try discriminate H.
      cbn [prop_loop] in H. destruct (map_at s0 al), (map_at s0 p); try discriminate H. destruct (allocator_alloc l p0) as [[r c] q].
      apply IH in H as [ps ->]; [|cbn in L; lia]. exists (Of s s0 :: ps). reflexivity.
    + cbn in H. inversion H; subst. exists []. reflexivity.
    + cbn [prop_loop] in H. destruct (allocator_alloc tr tp) as [[r c] q]. apply IH in H as [ps ->]; [|cbn in L; lia]. exists (Tree s :: ps). reflexivity.
Qed.
Lemma type_end_text n toks l rest l' : type_end n toks l = Some (rest, l') -> exists o, toks = plist o ++ RP :: rest.
Proof.
  unfold type_end. intros H. destruct toks as [|[] toks]; try discriminate H.
  - inversion H; subst. exists None. reflexivity.
  - destruct (parsePropList (STRING s :: toks) l) as [[[t l1] props]|] eqn:P; [|discriminate H].
    destruct t as [|[] t]; try discriminate H. inversion H; subst. clear H. unfold parsePropList in P. destruct toks as [|[] toks]; try discriminate P.
    destruct (prop_loop toks _ _ _ _ _) as [[[[r p] tp] m]|] eqn:Q; [|discriminate P]. inversion P; subst. 
    apply prop_loop_text with (k := List.length toks) in Q as [ps ->]; [|auto]. exists (Some (s, ps)). cbn. now rewrite <- List.app_assoc.
Qed.
Lemma base_text k : forall toks, List.length toks <= k -> forall l rest l', handle_defbasetype toks l = Some (rest, l') ->
  exists bs, toks = flat_map (fun e => [LP; IDENTIFIER (fst e); STRING (snd e); RP]) bs ++ RP :: rest.
Proof.
  induction k as [|k IH]; intros toks L l rest l' H.
  - destruct toks; [discriminate H|cbn in L; lia].
  - destruct toks as [|[] toks]; try discriminate H.
    + destruct toks as [|[] toks]; try discriminate H. destruct toks as [|[] toks]; try discriminate H. destruct toks as [|[] toks]; try discriminate H.
      cbn [handle_defbasetype] in H. apply IH in H as [bs ->]; [|cbn in L; lia]. exists ((s, s0) :: bs). reflexivity.
    + inversion H; subst. exists []. reflexivity.
Qed.
Lemma spec_list_text toks rest : handle_specifier_list toks = Some rest -> exists s, toks = map IDENTIFIER s ++ RP :: rest.
Proof.
  induction toks as [|[] toks IH]; intros H; try discriminate H.
  - inversion H; subst. exists []. reflexivity.
  - destruct (IH H) as [l ->]. exists (s :: l). reflexivity.
Qed.
Lemma spec_lists_text k : forall toks rest, specifier_lists k toks = Some rest -> exists l, toks = flat_map (fun s => LP :: map IDENTIFIER s ++ [RP]) l ++ RP :: rest.
Proof.
  induction k as [|k IH]; intros toks rest H; [discriminate H|]. destruct toks as [|[] toks]; try discriminate H.
  - cbn in H. destruct (handle_specifier_list toks) as [t|] eqn:E; [|discriminate H]. apply spec_list_text in E as [s ->].
    apply IH in H as [l ->]. exists (s :: l). cbn. now rewrite <- !List.app_assoc.
  - inversion H; subst. exists []. reflexivity.
Qed.
Lemma spec_text toks rest : handle_defspecifier toks = Some rest -> exists d, LP :: DEFSPECIFIER :: toks = dtext d ++ rest.
Proof.
  unfold handle_defspecifier. intros H. destruct toks as [|[] toks]; try discriminate H.
  - destruct toks as [|[] toks]; try discriminate H.
    destruct (specifier_lists _ toks) as [t|] eqn:E; [|discriminate H]. destruct t as [|[] t]; try discriminate H. inversion H; subst.
    apply spec_lists_text in E as [l ->]. exists (Spec s l). cbn. now rewrite <- List.app_assoc.
  - destruct toks as [|[] toks]; try discriminate H. destruct toks as [|[] toks]; try discriminate H. inversion H; subst. exists (Ignore s). reflexivity.
  - destruct toks as [|[] toks]; try discriminate H. destruct toks as [|[] toks]; try discriminate H. inversion H; subst. exists (Self s). reflexivity.
Qed.
Lemma lang_parse_text k : forall toks l l', lang_parse k toks l = Some l' -> exists d rest, toks = text d ++ rest /\ ends rest.
Proof.
  assert (cons : forall d toks, (exists ds rest, toks = text ds ++ rest /\ ends rest) -> exists ds rest, dtext d ++ toks = text ds ++ rest /\ ends rest).
  { intros d toks (ds & rest & -> & E). exists (d :: ds), rest. split; auto. cbn. now rewrite List.app_assoc. }
  induction k as [|k IH]; intros toks l l' H; [discriminate H|].
  destruct toks as [|[] toks]; try discriminate H.
  - exists [], []. split; auto. exact I.
  - destruct toks as [|[] toks]; try discriminate H; cbn [lang_parse] in H.
    + destruct (handle_deftype toks l) as [[t l1]|] eqn:E; [|discriminate H]. unfold handle_deftype in E.
      destruct toks as [|[] toks]; try discriminate E. destruct toks as [|[] toks]; try discriminate E.
      apply type_end_text in E as [o ->]. apply IH, (cons (Node s s0 o)) in H. cbn in H. rewrite <- List.app_assoc in H. exact H.
    + destruct (handle_defctype toks l) as [[t l1]|] eqn:E; [|discriminate H]. unfold handle_defctype in E.
      do 6 (destruct toks as [|[] toks]; try discriminate E).
      apply type_end_text in E as [o ->]. apply IH, (cons (CNode s s0 s1 s2 s3 s4 o)) in H. cbn in H. rewrite <- List.app_assoc in H. exact H.
    + destruct (handle_defbasetype toks l) as [[t l1]|] eqn:E; [|discriminate H].
      apply base_text with (k := List.length toks) in E as [b ->]; [|auto]. apply IH, (cons (Bases b)) in H. cbn in H. rewrite <- List.app_assoc in H. exact H.
    + destruct (handle_defspecifier toks) as [t|] eqn:E; [|discriminate H]. apply spec_text in E as [d E]. rewrite E. apply IH, (cons d) in H. exact H.
  - exists [], (DEFTYPE :: toks). split; auto. exact I.
Qed.

(** * The abstract state after a description *)
Lemma map_at_some {A} k (m : list (string * A)) : In k (map fst m) <-> exists v, map_at k m = Some v.
Proof.
  destruct (map_at k m) as [v|] eqn:E.
  - split; [eauto|]. intros _. apply map_at_in in E. now apply (in_map fst) in E.
  - split; [|intros [v H]; discriminate H]. intros I. apply map_at_none in E. tauto.
Qed.
Lemma ins_at k l : forall b, map_at k (ins b l) = match map_at k b with Some v => Some v | None => map_at k l end.
Proof.
  induction l as [|[n t] l IH]; intros b; cbn; [destruct (map_at k b); reflexivity|]. unfold ins in IH. rewrite IH, map_insert_at.
  destruct (map_at k b); auto. unfold map_at at 2; cbn. destruct (n =? k); reflexivity.
Qed.
Lemma ins_app a l l' : ins a (l ++ l') = ins (ins a l) l'.
Proof. unfold ins. now rewrite fold_left_app. Qed.
Lemma declb_iff b p : declb b p = true <-> match p with Tree _ => True | Of _ c => In c (map fst b) end.
Proof.
  destruct p; cbn; [tauto|]. rewrite map_at_some. destruct (map_at b0 b); split; try discriminate; eauto. intros [v H]; discriminate H.
Qed.
Lemma ins_nodup l : forall b, NoDup (map fst b) -> NoDup (map fst (ins b l)).
Proof. induction l as [|[n t] l IH]; intros b N; [exact N|]. cbn. apply IH. now apply insert_nodup. Qed.

Lemma pinst_ext b b' before p : (forall c, In c (map fst b) -> map_at c b' = map_at c b) -> declb b p = true -> pinst b' before p = pinst b before p.
Proof. intros H D. apply declb_iff in D. destruct p; cbn; auto. now rewrite H. Qed.
Lemma pmap_ext b b' ps : (forall c, In c (map fst b) -> map_at c b' = map_at c b) -> forallb (declb b) ps = true -> forall before m, pmap b' before ps m = pmap b before ps m.
Proof.
  intros H. induction ps as [|p ps IH]; cbn; auto. intros D before m. apply andb_prop in D as [D D']. rewrite IH by auto. now rewrite (pinst_ext b b').
Qed.
Definition wf_from (b : list (string * string)) (d : list def) : Prop :=
  forall before node after n ps p c, d = before ++ node :: after -> nodes [node] = [(n, ps)] -> In (Of p c) ps -> In c (map fst b) \/ In c (map fst (bases before)).
Lemma ins_fst k b l : In k (map fst (ins b l)) <-> In k (map fst b) \/ In k (map fst l).
Proof. rewrite !map_at_some, ins_at. destruct (map_at k b) as [v|]; split; eauto; intros [[w H]|[w H]]; eauto; discriminate H. Qed.
Lemma wf_cons b e d : wf_from b (e :: d) <-> (forall n ps p c, nodes [e] = [(n, ps)] -> In (Of p c) ps -> In c (map fst b)) /\ wf_from (ins b (bases [e])) d.
Proof.
  split.
  - intros W. split.
    + intros n ps p c E I. destruct (W [] e d n ps p c eq_refl E I) as [H|[]]; auto.
    + intros before node after n ps p c -> E I. destruct (W (e :: before) node after n ps p c eq_refl E I) as [H|H]; [left; apply ins_fst; auto|].
      cbn in H. unfold bases in H. rewrite map_app in H. apply in_app_or in H as [H|H]; auto. left. apply ins_fst. right. cbn. now rewrite List.app_nil_r.
  - intros [H W] before node after n ps p c E N I. destruct before as [|e' before]; cbn in E; inversion E; subst.
    + left. eauto.
    + destruct (W before node after n ps p c eq_refl N I) as [H'|H'].
      * apply ins_fst in H' as [H'|H']; auto. right. cbn in H' |- *. rewrite List.app_nil_r in H'. rewrite map_app. apply in_or_app. auto.
      * right. cbn. rewrite map_app. apply in_or_app. auto.
Qed.
Lemma forallb_declb b ps : forallb (declb b) ps = true <-> forall p c, In (Of p c) ps -> In c (map fst b).
Proof.
  rewrite forallb_forall. split.
  - intros H p c I. apply H, declb_iff in I. exact I.
  - intros H [n|n c] I; apply declb_iff; eauto.
Qed.
Definition after (d : list def) (x y : abs) : Prop :=
  bs y = ins (bs x) (bases d) /\ ns y = ns x ++ map snd (nodes d) /\ tt y = tt x ++ map (fun e => (fst e, pmap (bs y) [] (snd e) [])) (nodes d).
Lemma nodes_cons e d : nodes (e :: d) = nodes [e] ++ nodes d.
Proof. unfold nodes. cbn. now rewrite List.app_nil_r. Qed.
Lemma bases_cons e d : bases (e :: d) = bases [e] ++ bases d.
Proof. unfold bases. cbn. now rewrite List.app_nil_r. Qed.
Lemma node_or e : (exists n ps, nodes [e] = [(n, ps)] /\ bases [e] = [] /\ forall x, sem1 e x = sem_node n ps x) \/
  (nodes [e] = [] /\ forall x, sem1 e x = Some (mkabs (ins (bs x) (bases [e])) (ns x) (tt x))).
Proof.
  destruct e as [l|n f o|n f c g m ffi o|n l|n|n]; [right|left; exists n, (listed o); repeat split..|right|right|right]; cbn; (split; [reflexivity|]); intros x; try (now destruct x).
  now rewrite List.app_nil_r.
Qed.
Lemma sem_spec d : forall x, match sem d x with Some y => after d x y /\ wf_from (bs x) d | None => ~ wf_from (bs x) d end.
Proof.
  induction d as [|e d IH]; intros x; cbn [sem].
  - split; [split; [reflexivity|split; symmetry; apply List.app_nil_r]|]. intros before node a n ps p c E. destruct before; discriminate E.
  - destruct (node_or e) as [(n & ps & Hn & Hb & Hs)|[Hn Hs]]; rewrite Hs.
    + unfold sem_node. destruct (forallb (declb (bs x)) ps) eqn:F.
      * assert (F' := proj1 (forallb_declb _ _) F).
        specialize (IH (mkabs (bs x) (ns x ++ [ps]) (tt x ++ [(n, pmap (bs x) [] ps [])]))). cbn [bs] in IH. assert (Wc := wf_cons (bs x) e d). rewrite Hb in Wc. cbn [ins fold_left] in Wc.
        destruct (sem d _) as [y|]; [|tauto]. destruct IH as [(B & Ns & T) W]. cbn in B, Ns, T. split.
        -- split; [now rewrite bases_cons, Hb|]. rewrite nodes_cons, Hn, !map_app. cbn. split; [rewrite Ns, <- List.app_assoc; reflexivity|].
           rewrite T, <- List.app_assoc. cbn. do 3 f_equal. symmetry. apply pmap_ext; auto. intros c I. rewrite B, ins_at. apply map_at_some in I as [v ->]. reflexivity.
        -- apply Wc. split; auto. intros n' ps' p c E I. rewrite Hn in E. inversion E; subst. eauto.
      * rewrite wf_cons. intros [H _]. assert (forallb (declb (bs x)) ps = true); [|congruence]. apply forallb_declb. eauto.
    + specialize (IH (mkabs (ins (bs x) (bases [e])) (ns x) (tt x))). cbn [bs] in IH. assert (Wc := wf_cons (bs x) e d). destruct (sem d _) as [y|]; [|tauto].
      destruct IH as [(B & Ns & T) W]. cbn in B, Ns, T. split.
      * split; [rewrite bases_cons, ins_app; exact B|]. rewrite nodes_cons, Hn. cbn. auto.
      * apply Wc. split; auto. intros n ps p c E. rewrite Hn in E. discriminate E.
Qed.
Lemma wf_from_0 d : wf_from [] d <-> well_formed d.
Proof. split; intros W before node a n ps p c E N I; [destruct (W _ _ _ _ _ _ _ E N I) as [[]|H]; exact H|right; eauto]. Qed.

(** * Fields *)
Lemma pmap_at b n i ps : forall before m, map_at n (pmap b before ps m) = Some i <->
  map_at n m = Some i \/ (map_at n m = None /\ exists a p c, ps = a ++ p :: c /\ pname p = n /\ ~ In n (map pname a) /\ i = pinst b (before ++ a) p).
Proof.
  induction ps as [|p ps IH]; intros before m; cbn [pmap].
  - split; [auto|]. intros [H|(_ & a & p & c & E & _)]; auto. destruct a; discriminate E.
  - rewrite IH, map_insert_at. destruct (map_at n m) as [v|] eqn:E.
    + split; intros [H|[H _]]; auto; discriminate H.
    + destruct (String.eqb_spec (pname p) n) as [<-|N].
      * split.
        -- intros [[= <-]|[H _]]; [|discriminate H]. right. split; auto. exists [], p, ps. rewrite List.app_nil_r. split; [auto|]. split; [auto|]. split; auto.
        -- intros [H|(_ & a & q & c & E' & P & I & ->)]; [discriminate H|]. destruct a as [|q' a]; inversion E'; subst; [left; now rewrite List.app_nil_r|].
           destruct I. now left.
      * split.
        -- intros [H|(_ & a & q & c & -> & P & I & ->)]; [discriminate H|]. right. split; auto. exists (p :: a), q, c. rewrite <- List.app_assoc.
           split; [auto|]. split; [auto|]. split; auto. intros [H|H]; auto.
        -- intros [H|(_ & a & q & c & E' & P & I & ->)]; [discriminate H|]. right. split; auto. destruct a as [|q' a]; inversion E'; subst; [now destruct N|].
           exists a, q, c. rewrite <- List.app_assoc. split; [auto|]. split; [auto|]. split; auto. intros H. apply I. now right.
Qed.
Lemma filter_same p before : filter (same_base p) before = filter (isb (pbase p)) before.
Proof. destruct p; reflexivity. Qed.
Lemma pinst_field b before p : memberName (pinst b before p) = field before p.
Proof. unfold field. rewrite filter_same. destruct p; reflexivity. Qed.
Lemma has_type_iff d p t : has_type d p t <-> match p with Tree _ => t = "tree" | Of _ b => map_at b (bases d) = Some t end.
Proof.
  destruct p as [n|n b].
  - split; [intros H; now inversion H|intros ->; constructor].
  - split.
    + intros H. inversion H as [|? ? ? before aft E N]; subst. rewrite E, map_at_app, (proj2 (map_at_none _ _) N). unfold map_at. cbn. now rewrite String.eqb_refl.
    + assert (G : forall l, map_at b l = Some t -> exists x y, l = x ++ (b, t) :: y /\ ~ In b (map fst x)).
      { clear. induction l as [|[k v] l IH]; [discriminate|]. unfold map_at. cbn. destruct (String.eqb_spec k b) as [->|N].
        - intros [= ->]. exists [], l. auto.
        - intros H. destruct (IH H) as (x & y & -> & I). exists ((k, v) :: x), y. split; auto. intros [J|J]; auto. }
      intros H. destruct (G _ H) as (x & y & E & I). econstructor; eauto.
Qed.
Lemma ins_0 d k : map_at k (ins [] (bases d)) = map_at k (bases d).
Proof. now rewrite ins_at. Qed.
Lemma pinst_type d before p t : declb (ins [] (bases d)) p = true -> (type (baseType (pinst (ins [] (bases d)) before p)) = t <-> has_type d p t).
Proof.
  intros D. rewrite has_type_iff. destruct p; cbn in *; [split; congruence|]. rewrite ins_0 in *. destruct (map_at b (bases d)); [|discriminate D]. split; congruence.
Qed.
Lemma cnt_at o ps k : k < cnt o ps <-> exists a p c, ps = a ++ p :: c /\ isb o p = true /\ cnt o a = k.
Proof.
  split.
  - revert k. induction ps as [|p ps IH]; intros k H; [cbn in H; lia|]. change (p :: ps) with ([p] ++ ps) in H. rewrite cnt_app in H.
    destruct (isb o p) eqn:E.
    + destruct k as [|k]; [exists [], p, ps; auto|]. destruct (IH k) as (a & q & c & -> & I & C); [unfold cnt at 1 in H; cbn in H; rewrite E in H; cbn in H; lia|].
      exists (p :: a), q, c. split; [auto|]. split; auto. change (p :: a) with ([p] ++ a). rewrite cnt_app. unfold cnt at 1. cbn. rewrite E. cbn. lia.
    + destruct (IH k) as (a & q & c & -> & I & C); [unfold cnt at 1 in H; cbn in H; rewrite E in H; cbn in H; lia|].
      exists (p :: a), q, c. split; [auto|]. split; auto. change (p :: a) with ([p] ++ a). rewrite cnt_app. unfold cnt at 1. cbn. now rewrite E.
  - intros (a & p & c & -> & I & <-). change (p :: c) with ([p] ++ c). rewrite !cnt_app. unfold cnt at 3. cbn. rewrite I. cbn. lia.
Qed.
Lemma size_at o nss k : k < size o nss <-> exists ps, In ps nss /\ k < cnt o ps.
Proof.
  induction nss as [|ps nss IH]; cbn [size].
  - split; [lia|intros (? & [] & _)].
  - split.
    + intros H. destruct (lt_dec k (cnt o ps)) as [L|L]; [exists ps; split; auto; now left|]. destruct (proj1 IH) as (qs & I & L'); [lia|]. exists qs. split; auto. now right.
    + intros (qs & [->|I] & L); [lia|]. assert (k < size o nss) by (apply IH; eauto). lia.
Qed.
Lemma isb_iff o p : isb o p = true <-> pbase p = o.
Proof. destruct o, p; cbn; try (split; [discriminate|congruence]); [|tauto]. rewrite String.eqb_eq. split; congruence. Qed.

Lemma decls_st y : declarations (st y) = flat_map (fun e => map (fun k => (snd e, (fst e ++ to_string k)%string)) (seq 0 (size (Some (fst e)) (ns y)))) (bs y) ++
  map (fun k => ("tree", ("t" ++ to_string k)%string)) (seq 0 (size None (ns y))).
Proof.
  unfold declarations, st. cbn [baseTypePools treePool]. rewrite map_app. f_equal.
  - unfold pools. induction (bs y) as [|e l IH]; [reflexivity|]. cbn [map flat_map snd fst pool_ mkp]. rewrite map_app, IH. f_equal. rewrite map_map. reflexivity.
  - unfold mkp. cbn [pool_]. rewrite map_map. reflexivity.
Qed.
Lemma needed_iff d y t f : after d abs0 y -> good y -> (In (t, f) (declarations (st y)) <-> needed d t f).
Proof.
  intros (B & Ns & _) [N G]. cbn in B, Ns. rewrite decls_st. unfold needed. split.
  - intros I. apply in_app_or in I as [I|I].
    + apply in_flat_map in I as ((b & t') & Ib & I). apply in_map_iff in I as (k & [= -> <-] & K). apply in_seq in K. cbn [fst] in K.
      destruct (proj1 (size_at _ _ k) (proj2 K)) as (ps & Ip & C). apply cnt_at in C as (a & p & c & -> & I & <-). apply isb_iff in I. destruct p as [n'|n' b']; [discriminate I|]. inversion I; subst b'.
      rewrite Ns in Ip. apply in_map_iff in Ip as ((n & ps) & E & Ip). cbn in E. subst ps. exists n, a, (Of n' b), c. split; [exact Ip|]. split; [|reflexivity].
      apply has_type_iff. rewrite <- ins_0, <- B. destruct (map_at b (bs y)) as [t'|] eqn:M; [f_equal; symmetry; eapply at_unique; eauto|].
      apply map_at_none in M. destruct M. now apply (in_map fst) in Ib.
    + apply in_map_iff in I as (k & [= <- <-] & K). apply in_seq in K.
      destruct (proj1 (size_at _ _ k) (proj2 K)) as (ps & Ip & C). apply cnt_at in C as (a & p & c & -> & I & <-). apply isb_iff in I. destruct p as [n'|n' b']; [|discriminate I].
      rewrite Ns in Ip. apply in_map_iff in Ip as ((n & ps) & E & Ip). cbn in E. subst ps. exists n, a, (Tree n'), c. split; [exact Ip|]. split; [constructor|reflexivity].
  - intros (n & a & p & c & I & T & ->). apply has_type_iff in T.
    assert (Ip : In (a ++ p :: c) (ns y)) by (rewrite Ns; apply (in_map snd) in I; exact I).
    assert (K : cnt (pbase p) a < size (pbase p) (ns y)) by (apply size_at; exists (a ++ p :: c); split; auto; apply cnt_at; exists a, p, c; split; [auto|]; split; auto; now apply isb_iff).
    unfold field. rewrite filter_same. apply in_or_app. destruct p as [n'|n' b]; cbn [pbase base] in *.
    + right. subst t. apply in_map_iff. eexists. split; [reflexivity|]. apply in_seq. fold (cnt None a). lia.
    + left. apply in_flat_map. exists (b, t). split; [apply map_at_in; rewrite B, ins_0; exact T|]. apply in_map_iff. eexists. split; [reflexivity|]. apply in_seq. cbn [fst]. fold (cnt (Some b) a). lia.
Qed.

Lemma nodup_names (f : string -> nat) l : NoDup l -> (forall b c s, In b l -> In c l -> digits s -> b <> (c ++ s)%string) ->
  NoDup (flat_map (fun b => map (fun k => (b ++ to_string k)%string) (seq 0 (f b))) l).
Proof.
  induction l as [|b l IH]; intros N S; [constructor|]. inversion N; subst. cbn [flat_map].
  assert (D : forall A (a c : list A), NoDup a -> NoDup c -> (forall x, In x a -> ~ In x c) -> NoDup (a ++ c)).
  { clear. intros A a c. induction a as [|x a IH]; cbn; auto. intros N M H. inversion N; subst. constructor; [|apply IH; auto].
    intros I. apply in_app_or in I as [I|I]; [auto|]. apply (H x); auto. }
  apply D.
  - apply FinFun.Injective_map_NoDup; [|apply seq_NoDup]. intros x y E. apply app_inj_s in E. now apply to_string_inj.
  - apply IH; auto. intros; apply S; auto; now right.
  - intros x I J. apply in_map_iff in I as (k & <- & K). apply in_flat_map in J as (c & C & J). apply in_map_iff in J as (k' & E & K').
    symmetry in E. apply names_differ in E as [-> _]; [auto| |]; intros s Ds; apply S; auto; try (now left); now right.
Qed.

(** * The theorems *)
Lemma read_after d l : lang_read (text d) = Some l -> exists y, l = st y /\ after d abs0 y /\ good y /\ well_formed d.
Proof.
  intros H. assert (R := lang_read_spec d [] I). rewrite List.app_nil_r in R. assert (S := sem_spec d abs0).
  destruct (sem d abs0) as [y|]; [|congruence]. destruct R as [R G]. exists y. rewrite H in R. inversion R. destruct S as [A W]. apply wf_from_0 in W. auto.
Qed.
Lemma ends_iff rest : ends rest <-> rest = [] \/ exists r, rest = DEFTYPE :: r.
Proof. destruct rest as [|[] rest]; cbn; split; auto; try tauto; try (intros [H|[r H]]; discriminate H). eauto. Qed.
Lemma accepted toks : (exists l, lang_read toks = Some l) <-> exists d rest, toks = text d ++ rest /\ (rest = [] \/ exists r, rest = DEFTYPE :: r) /\ well_formed d.
Proof.
  split.
  - intros [l H]. destruct (lang_parse_text _ _ _ _ H) as (d & rest & -> & E). exists d, rest. split; auto. split; [now apply ends_iff|].
    assert (R := lang_read_spec d rest E). assert (S := sem_spec d abs0). destruct (sem d abs0); [|congruence]. apply wf_from_0. apply S.
  - intros (d & rest & -> & E & W). apply ends_iff in E. assert (R := lang_read_spec d rest E). assert (S := sem_spec d abs0).
    destruct (sem d abs0); [destruct R; eauto|]. destruct S. now apply wf_from_0.
Qed.
Lemma rest_ignored d r : lang_read (text d ++ DEFTYPE :: r) = lang_read (text d).
Proof.
  assert (R := lang_read_spec d (DEFTYPE :: r) I). assert (R' := lang_read_spec d [] I). rewrite List.app_nil_r in R'. destruct (sem d abs0); [destruct R, R'|]; congruence.
Qed.
Lemma layout d l : lang_read (text d) = Some l ->
  Forall2 (fun node entry => fst entry = fst node /\
    forall n f t, (exists i, map_at n (snd entry) = Some i /\ memberName i = f /\ type (baseType i) = t) <-> field_of d (snd node) n f t) (nodes d) (treeTypes l).
Proof.
  intros H. destruct (read_after _ _ H) as (y & -> & (B & Ns & T) & [N G] & W). cbn in B, Ns, T. cbn [st treeTypes]. rewrite T.
  assert (D : forall ps, In ps (map snd (nodes d)) -> forall p, In p ps -> declb (bs y) p = true) by (intros; eapply G; eauto; now rewrite Ns).
  clear - B D. induction (nodes d) as [|[n ps] ms IH]; cbn; constructor.
  - cbn. split; [reflexivity|]. intros m f t. assert (Dp := D ps (or_introl eq_refl)). rewrite B in *. unfold field_of. split.
    + intros (i & M & <- & Ht). apply pmap_at in M as [M|(_ & a & p & c & -> & P & I & ->)]; [discriminate M|]. exists a, p, c. rewrite pinst_field.
      split; [auto|]. split; [auto|]. split; [auto|]. split; [auto|]. eapply pinst_type; eauto. apply Dp. apply in_or_app. right. now left.
    + intros (a & p & c & -> & P & I & -> & Ht). exists (pinst (ins [] (bases d)) a p). split; [|split; [apply pinst_field|]].
      * apply pmap_at. right. split; [reflexivity|]. exists a, p, c. auto.
      * apply pinst_type; auto. apply Dp. apply in_or_app. right. now left.
  - apply IH. intros. eapply D; eauto. now right.
Qed.
Lemma declared d l : lang_read (text d) = Some l -> forall t f, In (t, f) (declarations l) <-> needed d t f.
Proof. intros H t f. destruct (read_after _ _ H) as (y & -> & A & G & W). now apply needed_iff. Qed.
Lemma declared_once d l : lang_read (text d) = Some l -> separate d -> NoDup (map snd (declarations l)).
Proof.
  intros H [T S]. destruct (read_after _ _ H) as (y & -> & (B & Ns & _) & [N G] & W). cbn in B, Ns. rewrite decls_st, map_app.
  assert (E : map snd (flat_map (fun e => map (fun k => (snd e, (fst e ++ to_string k)%string)) (seq 0 (size (Some (fst e)) (ns y)))) (bs y)) ++
      map snd (map (fun k => ("tree", ("t" ++ to_string k)%string)) (seq 0 (size None (ns y)))) =
    flat_map (fun b => map (fun k => (b ++ to_string k)%string) (seq 0 (if b =? "t" then size None (ns y) else size (Some b) (ns y)))) (map fst (bs y) ++ ["t"])).
  { rewrite flat_map_app. f_equal; [|cbn; now rewrite List.app_nil_r, map_map].
    assert (K : forall e, In e (bs y) -> fst e <> "t").
    { intros e I E0. apply T. apply (in_map fst) in I. rewrite E0, B in I. apply ins_fst in I as [[]|I]; exact I. }
    clear - K. induction (bs y) as [|e m IH]; [reflexivity|]. cbn [map flat_map]. rewrite map_app, IH by (intros; apply K; now right). f_equal.
    rewrite map_map. rewrite (proj2 (String.eqb_neq _ _)) by (apply K; now left). reflexivity. }
  rewrite E. assert (Kin : forall b, In b (map fst (bs y) ++ ["t"]) -> In b ("t" :: map fst (bases d))).
  { intros b I. apply in_app_or in I as [I|[<-|[]]]; [|now left]. rewrite B in I. apply ins_fst in I as [[]|I]. now right. }
  apply (nodup_names (fun b => if b =? "t" then size None (ns y) else size (Some b) (ns y))).
  - apply NoDup_rev in N. rewrite <- (rev_involutive (map fst (bs y) ++ ["t"])), rev_app_distr. apply NoDup_rev. cbn. constructor; auto.
    rewrite <- in_rev. intros I. rewrite B in I. apply ins_fst in I as [[]|I]; auto.
  - intros b c s I J D. apply S; auto.
Qed.
Lemma app_cases {A} (a a' : list A) p q : forall c c', a ++ p :: c = a' ++ q :: c' ->
  (a = a' /\ p = q /\ c = c') \/ (exists w, a' = a ++ p :: w) \/ (exists w, a = a' ++ q :: w).
Proof.
  revert a'. induction a as [|x a IH]; intros [|y a'] c c' H; cbn in H; inversion H; subst; auto.
  - right. left. exists a'. reflexivity.
  - right. right. exists a. reflexivity.
  - destruct (IH _ _ _ H2) as [(-> & -> & ->)|[[w ->]|[w ->]]]; [auto|right; left; exists w; reflexivity|right; right; exists w; reflexivity].
Qed.
Lemma disjoint d l : lang_read (text d) = Some l -> separate d -> forall x m n i n' j, In (x, m) (treeTypes l) ->
  map_at n m = Some i -> map_at n' m = Some j -> n <> n' -> memberName i <> memberName j.
Proof.
  intros H S x m n i n' j I Hi Hj Nn E. assert (L := layout _ _ H). assert (exists e, In e (nodes d) /\ forall n f t, (exists i, map_at n m = Some i /\ memberName i = f /\ type (baseType i) = t) <-> field_of d (snd e) n f t) as (e & Ie & F).
  { clear - L I. induction L; [destruct I|]. destruct I as [->|I]; [|destruct (IHL I) as (e & J & F); exists e; split; auto; now right]. exists x0. split; [now left|]. apply H. }
  assert (K : forall n i, map_at n m = Some i -> exists a p c, snd e = a ++ p :: c /\ pname p = n /\ memberName i = field a p /\ In (base p) ("t" :: map fst (bases d)) /\ (base p = "t" -> pbase p = None)).
  { intros k ii Hk. destruct (proj1 (F k (memberName ii) (type (baseType ii)))) as (a & p & c & E1 & P & _ & Ef & Ht); [eauto|]. exists a, p, c. split; [auto|]. split; [auto|]. split; [auto|].
    apply has_type_iff in Ht. destruct p as [q|q b]; cbn; [split; auto|]. assert (Ib : In b (map fst (bases d))) by (apply map_at_some; eauto). split; [auto|].
    intros ->. destruct S as [S _]. destruct (S Ib). }
  destruct (K _ _ Hi) as (a & p & c & E1 & P1 & F1 & B1 & T1). destruct (K _ _ Hj) as (a' & q & c' & E2 & P2 & F2 & B2 & T2).
  rewrite F1, F2 in E. unfold field in E. destruct S as [_ S]. apply names_differ in E as [Eb En]; [|intros; apply S; auto..].
  assert (Eo : pbase p = pbase q).
  { destruct p, q; cbn in *; try congruence; [symmetry in Eb; specialize (T2 Eb); discriminate T2|specialize (T1 Eb); discriminate T1]. }
  rewrite !filter_same, Eo in En. fold (cnt (pbase q) a) in En. fold (cnt (pbase q) a') in En.
  rewrite E1 in E2. destruct (app_cases a a' p q c c' E2) as [(-> & -> & ->)|[(w & Ew)|(w & Ew)]].
  - congruence.
  - rewrite Ew in En. change (p :: w) with ([p] ++ w) in En. rewrite !cnt_app in En. unfold cnt at 3 in En. cbn in En. rewrite (proj2 (isb_iff _ _) Eo) in En. cbn in En. lia.
  - rewrite Ew in En. change (q :: w) with ([q] ++ w) in En. rewrite !cnt_app in En. unfold cnt at 2 in En. cbn in En. rewrite (proj2 (isb_iff _ _) eq_refl) in En. cbn in En. lia.
Qed.
