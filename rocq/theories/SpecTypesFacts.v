(** Proofs about the specifier resolver. *)
From Coq Require Import ZArith NArith List Permutation Bool Lia.
From Verif Require Import CInt Tree SpecResolver SpecTypes.
Import ListNotations.

Definition spec_dec (a b : spec) : {a = b} + {a <> b}.
Proof. decide equality. Defined.

(** ** The bit string stands for the numbers of occurrences *)

Definition keys : list spec := map fst no_bits_per_specifier.
Definition counts := list nat.

(** All numbers of occurrences within the limits. *)
Fixpoint all_counts (l : list (spec * nat)) : list counts :=
  match l with
  | [] => [[]]
  | (_, n) :: l => flat_map (fun c => map (cons c) (all_counts l)) (seq 0 (S n))
  end.

Fixpoint enc (l : list (spec * nat)) (cur : nat) (st : counts) : N :=
  match l, st with
  | (_, n) :: l, c :: st => N.lor (N.shiftl (N.ones (N.of_nat c)) (N.of_nat cur)) (enc l (cur + n) st)
  | _, _ => 0
  end.

Fixpoint bump (l : list (spec * nat)) (s : spec) (st : counts) : option counts :=
  match l, st with
  | (s', n) :: l, c :: st =>
      if spec_eqb s s' then if Nat.ltb c n then Some (S c :: st) else None
      else option_map (cons c) (bump l s st)
  | _, _ => None
  end.

Definition L := no_bits_per_specifier.

Definition next (s : spec) (bits : N) : option N :=
  match bit_alloc L 0 s with
  | Some (b, n) => set_first_free b n bits
  | None => None
  end.

Definition all_specs : list spec :=
  [T_TYPEDEF; T_EXTERN; T_STATIC; T_AUTO; T_REGISTER; T_VOID_TS; T_CHAR_TS; T_SHORT_TS; T_INT_TS; T_LONG_TS;
   T_FLOAT_TS; T_DOUBLE_TS; T_SIGNED_TS; T_UNSIGNED_TS; T_BOOL_TS; T_CONST; T_RESTRICT; T_VOLATILE; T_INLINE].
Lemma all_specs_in s : In s all_specs.
Proof. destruct s; cbn; tauto. Qed.

Definition opt_eqb (a b : option N) : bool :=
  match a, b with Some x, Some y => N.eqb x y | None, None => true | _, _ => false end.

Lemma next_table : forallb (fun st => forallb (fun s =>
  opt_eqb (next s (enc L 0 st)) (option_map (enc L 0) (bump L s st))) all_specs) (all_counts L) = true.
Proof. vm_compute. reflexivity. Qed.

Lemma opt_eqb_eq a b : opt_eqb a b = true -> a = b.
Proof. destruct a, b; cbn; try discriminate; auto. intros H. apply N.eqb_eq in H. congruence. Qed.

Lemma next_enc st s : In st (all_counts L) -> next s (enc L 0 st) = option_map (enc L 0) (bump L s st).
Proof.
  intros H. pose proof next_table as T. rewrite forallb_forall in T. specialize (T st H). cbv beta in T.
  rewrite forallb_forall in T. apply opt_eqb_eq, T, all_specs_in.
Qed.

(** Numbers of occurrences in a list. *)
Definition count_all (l : list spec) : counts := map (fun k => count_occ spec_dec l k) keys.

Lemma spec_eqb_eq a b : spec_eqb a b = true <-> a = b.
Proof. split; [destruct a, b; cbn; congruence | intros ->; destruct b; reflexivity]. Qed.

Lemma bump_keys s l st st' : bump l s st = Some st' -> In s (map fst l).
Proof.
  revert st st'. induction l as [|[s' n] l IH]; cbn; intros st st' H; [discriminate|].
  destruct st as [|c st]; [discriminate|]. destruct (spec_eqb s s') eqn:Hs.
  - apply spec_eqb_eq in Hs. auto.
  - destruct (bump l s st) eqn:Hb; [|discriminate]. right. eapply IH; eauto.
Qed.

Lemma in_all_counts l st : In st (all_counts l) <-> Forall2 (fun x c => c <= snd x)%nat l st.
Proof.
  revert st. induction l as [|[s n] l IH]; intros st.
  - cbn. split; [intros [<-|[]]; constructor | intros H; inversion H; auto].
  - cbn [all_counts]. rewrite in_flat_map. split.
    + intros (c & Hc & H). apply in_map_iff in H as (st' & <- & H). apply in_seq in Hc. constructor; [cbn; lia|].
      apply IH, H.
    + intros H. inversion H; subst. cbn [snd] in *. exists y. split; [apply in_seq; lia|]. apply in_map, IH. assumption.
Qed.

(** Adding one specifier. *)
Lemma count_add s l k : count_occ spec_dec (s :: l) k = ((if spec_dec s k then 1 else 0) + count_occ spec_dec l k)%nat.
Proof. cbn. destruct (spec_dec s k); reflexivity. Qed.

Lemma bump_counts s l : forall L0, NoDup (map fst L0) -> In s (map fst L0) ->
  (forall n, In (s, n) L0 -> (count_occ spec_dec l s < n)%nat) ->
  bump L0 s (map (fun k => count_occ spec_dec l k) (map fst L0)) =
  Some (map (fun k => count_occ spec_dec (s :: l) k) (map fst L0)).
Proof.
  induction L0 as [|[s' n] L0 IH]; cbn [map fst bump]; intros Hn Hi Hb; [contradiction|].
  inversion Hn; subst. destruct (spec_eqb s s') eqn:Hs.
  - apply spec_eqb_eq in Hs. subst s'. specialize (Hb n (or_introl eq_refl)).
    destruct (Nat.ltb_spec (count_occ spec_dec l s) n); [|lia]. rewrite count_add.
    destruct (spec_dec s s); [|congruence]. do 2 f_equal.
    apply map_ext_in. intros k Hk. rewrite count_add. destruct (spec_dec s k); [subst; contradiction|reflexivity].
  - assert (s <> s') by (intros ->; rewrite (proj2 (spec_eqb_eq s' s') eq_refl) in Hs; discriminate).
    destruct Hi as [->|Hi]; [congruence|]. rewrite IH; auto; [|intros m Hm; apply Hb; right; exact Hm].
    cbn [option_map]. rewrite count_add. destruct (spec_dec s s'); [congruence|reflexivity].
Qed.

Lemma bump_full s l : forall L0, NoDup (map fst L0) -> In s (map fst L0) ->
  (forall n, In (s, n) L0 -> ~ (count_occ spec_dec l s < n)%nat) ->
  bump L0 s (map (fun k => count_occ spec_dec l k) (map fst L0)) = None.
Proof.
  induction L0 as [|[s' n] L0 IH]; cbn [map fst bump]; intros Hn Hi Hb; [contradiction|].
  inversion Hn; subst. destruct (spec_eqb s s') eqn:Hs.
  - apply spec_eqb_eq in Hs. subst s'. specialize (Hb n (or_introl eq_refl)).
    destruct (Nat.ltb_spec (count_occ spec_dec l s) n); [lia|reflexivity].
  - assert (s <> s') by (intros ->; rewrite (proj2 (spec_eqb_eq s' s') eq_refl) in Hs; discriminate).
    destruct Hi as [->|Hi]; [congruence|]. rewrite IH; auto. intros m Hm; apply Hb; right; exact Hm.
Qed.

Definition limit (s : spec) : nat :=
  match s with
  | T_LONG_TS => 2
  | T_VOID_TS | T_CHAR_TS | T_SHORT_TS | T_INT_TS | T_FLOAT_TS | T_DOUBLE_TS | T_SIGNED_TS | T_UNSIGNED_TS => 1
  | _ => 0
  end.

Lemma limit_L s n : In (s, n) L -> n = limit s.
Proof. cbn. intros H. repeat (destruct H as [H|H]; [injection H as <- <-; reflexivity|]). contradiction. Qed.
Lemma keys_limit s : In s keys <-> (0 < limit s)%nat.
Proof.
  split; [cbn; intros H; repeat (destruct H as [<-|H]; [cbn; lia|]); contradiction|].
  destruct s; cbn; intros H; try lia; tauto.
Qed.
Lemma keys_nodup : NoDup keys.
Proof. unfold keys. cbn. repeat constructor; cbn; intuition congruence. Qed.
Lemma keys_in s : In s keys -> exists n, In (s, n) L.
Proof. unfold keys. rewrite in_map_iff. intros ([s' n] & <- & H). exists n. exact H. Qed.

(** Within the limits. *)
Definition within (l : list spec) : Prop := forall s, (count_occ spec_dec l s <= limit s)%nat.

Lemma within_all l : within l -> In (count_all l) (all_counts L).
Proof.
  intros H. apply in_all_counts. unfold count_all, keys. unfold L.
  assert (Hg : forall M, (forall s n, In (s, n) M -> n = limit s) ->
    Forall2 (fun (x : spec * nat) c => (c <= snd x)%nat) M (map (fun k => count_occ spec_dec l k) (map fst M))).
  { induction M as [|[s n] M IH]; intros HM; cbn; constructor; [cbn; rewrite (HM s n (or_introl eq_refl)); apply H|].
    apply IH. intros; apply HM; right; auto. }
  apply Hg. apply limit_L.
Qed.

Lemma next_within seen s : within seen ->
  next s (enc L 0 (count_all seen)) =
  if Nat.ltb (count_occ spec_dec seen s) (limit s) then Some (enc L 0 (count_all (s :: seen))) else None.
Proof.
  intros Hw. rewrite next_enc by (apply within_all, Hw). unfold count_all, keys.
  destruct (in_dec spec_dec s keys) as [Hk|Hk].
  - destruct (Nat.ltb_spec (count_occ spec_dec seen s) (limit s)).
    + unfold L. rewrite bump_counts; [reflexivity|apply keys_nodup|exact Hk|].
      intros n Hn. apply limit_L in Hn. lia.
    + unfold L. rewrite bump_full; [reflexivity|apply keys_nodup|exact Hk|].
      intros n Hn. apply limit_L in Hn. lia.
  - assert (Hl : limit s = 0%nat) by (rewrite keys_limit in Hk; lia). rewrite Hl. cbn [Nat.ltb].
    destruct (bump L s (map (fun k => count_occ spec_dec seen k) (map fst no_bits_per_specifier))) eqn:Hb.
    + apply bump_keys in Hb. contradiction.
    + destruct (Nat.ltb_spec (count_occ spec_dec seen s) 0); [lia|reflexivity].
Qed.

(** ** The loop *)

Definition storage_class (s : spec) : bool :=
  match s with T_EXTERN | T_TYPEDEF | T_STATIC => true | _ => false end.

Lemma resolve_loop_spec s l bits : storage_class s = false ->
  resolve_loop (T_SPEC s :: l) bits =
  match next s bits with Some bits' => resolve_loop l bits' | None => SpecDie end.
Proof. intros H. destruct s; try discriminate; reflexivity. Qed.

Lemma within_dec l : {within l} + {~ within l}.
Proof.
  assert (H : {forall s, In s all_specs -> (count_occ spec_dec l s <= limit s)%nat} +
              {~ forall s, In s all_specs -> (count_occ spec_dec l s <= limit s)%nat}).
  { generalize all_specs. induction l0 as [|s l0 IH]; [left; intros s []|].
    destruct (le_dec (count_occ spec_dec l s) (limit s)); [|right; intros H; apply n, H; left; reflexivity].
    destruct IH as [IH|IH]; [left; intros s' [<-|Hs]; auto|right; intros H; apply IH; intros; apply H; right; auto]. }
  destruct H as [H|H]; [left; intros s; apply H, all_specs_in|right; intros H'; apply H; intros; apply H'].
Qed.

Lemma type_part_cons s l : type_part (s :: l) = if storage_class s then type_part l else s :: type_part l.
Proof. destruct s; reflexivity. Qed.

Lemma within_perm l l' : Permutation l l' -> within l -> within l'.
Proof. intros H Hw s. rewrite <- (proj1 (Permutation_count_occ spec_dec l l') H s). apply Hw. Qed.
Lemma count_all_perm l l' : Permutation l l' -> count_all l = count_all l'.
Proof. intros H. unfold count_all. apply map_ext. intros k. apply Permutation_count_occ, H. Qed.

Lemma loop_general specs : forall seen rest, within seen ->
  resolve_loop (map T_SPEC specs ++ rest) (enc L 0 (count_all seen)) =
  if within_dec (type_part specs ++ seen)
  then resolve_loop rest (enc L 0 (count_all (type_part specs ++ seen)))
  else SpecDie.
Proof.
  induction specs as [|s specs IH]; intros seen rest Hw.
  - cbn [type_part filter map app]. destruct (within_dec seen); [reflexivity|contradiction].
  - cbn [map app]. rewrite type_part_cons. destruct (storage_class s) eqn:Hs.
    + replace (resolve_loop (T_SPEC s :: map T_SPEC specs ++ rest) (enc L 0 (count_all seen)))
        with (resolve_loop (map T_SPEC specs ++ rest) (enc L 0 (count_all seen)))
        by (destruct s; try discriminate; reflexivity).
      apply IH, Hw.
    + rewrite resolve_loop_spec, next_within by assumption.
      assert (Hp : Permutation ((s :: type_part specs) ++ seen) (type_part specs ++ s :: seen))
        by (cbn [app]; apply Permutation_middle).
      destruct (Nat.ltb_spec (count_occ spec_dec seen s) (limit s)) as [Hlt|Hge].
      * assert (Hw' : within (s :: seen)).
        { intros k. rewrite count_add. destruct (spec_dec s k); [subst; lia|apply Hw]. }
        rewrite IH by exact Hw'. rewrite (count_all_perm _ _ Hp).
        destruct (within_dec (type_part specs ++ s :: seen)) as [H1|H1],
                 (within_dec ((s :: type_part specs) ++ seen)) as [H2|H2]; try reflexivity; exfalso.
        { apply H2. eapply within_perm; [apply Permutation_sym, Hp|exact H1]. }
        { apply H1. eapply within_perm; [exact Hp|exact H2]. }
      * destruct (within_dec ((s :: type_part specs) ++ seen)) as [H2|H2]; [|reflexivity]. exfalso.
        specialize (H2 s). cbn [app] in H2. rewrite count_add, count_occ_app in H2.
        destruct (spec_dec s s); [lia|congruence].
Qed.

(** ** The table *)

Definition denotes_list : list (list spec * tree) :=
  flat_map (fun x => map (fun l => (l, fst x)) (snd x)) spec_maps.
Lemma denotes_iff l t : denotes l t <-> In (l, t) denotes_list.
Proof.
  split; [intros H; destruct H; cbn; tauto|].
  intros H. cbn in H. repeat (destruct H as [H|H]; [injection H as <- <-; constructor|]). contradiction.
Qed.

Definition tree_eqb (a b : tree) : bool :=
  match a, b with
  | D_T_VOID, D_T_VOID => true
  | D_T c, D_T c' => match c, c' with
      | D_T_CHAR, D_T_CHAR | D_T_SHORT, D_T_SHORT | D_T_INT, D_T_INT | D_T_LONG, D_T_LONG
      | D_T_LONGLONG, D_T_LONGLONG | D_T_UCHAR, D_T_UCHAR | D_T_USHORT, D_T_USHORT | D_T_UINT, D_T_UINT
      | D_T_ULONG, D_T_ULONG | D_T_ULONGLONG, D_T_ULONGLONG | D_T_FLOAT, D_T_FLOAT | D_T_DOUBLE, D_T_DOUBLE
      | D_T_LONGDOUBLE, D_T_LONGDOUBLE => true
      | _, _ => false end
  | _, _ => false
  end.
Lemma tree_eqb_eq a b : tree_eqb a b = true -> a = b.
Proof. destruct a; try discriminate; destruct b; try discriminate; cbn; auto. destruct c, c0; congruence. Qed.

Definition counts_eqb (a b : counts) : bool := if list_eq_dec Nat.eq_dec a b then true else false.
Definition by_counts (st : counts) : option tree :=
  match find (fun x => counts_eqb (count_all (fst x)) st) denotes_list with
  | Some x => Some (snd x)
  | None => None
  end.
Definition agrees (r : spec_res) (o : option tree) : bool :=
  match r, o with
  | SpecOk t, Some t' => tree_eqb t t'
  | SpecDie, None => true
  | _, _ => false
  end.
Lemma final_table : forallb (fun st => agrees (type_return spec_maps (enc L 0 st)) (by_counts st)) (all_counts L) = true.
Proof. vm_compute. reflexivity. Qed.

Lemma distinct_table : forallb (fun x => forallb (fun y =>
  implb (counts_eqb (count_all (fst x)) (count_all (fst y))) (tree_eqb (snd x) (snd y))) denotes_list) denotes_list = true.
Proof. vm_compute. reflexivity. Qed.
Lemma table_within : forallb (fun x => forallb (fun s => Nat.leb (count_occ spec_dec (fst x) s) (limit s)) all_specs)
  denotes_list = true.
Proof. vm_compute. reflexivity. Qed.

Lemma final_spec st : In st (all_counts L) ->
  type_return spec_maps (enc L 0 st) = match by_counts st with Some t => SpecOk t | None => SpecDie end.
Proof.
  intros H. pose proof final_table as T. rewrite forallb_forall in T. specialize (T st H). unfold agrees in T.
  destruct (type_return spec_maps (enc L 0 st)), (by_counts st); try discriminate; auto.
  apply tree_eqb_eq in T. congruence.
Qed.

Lemma counts_perm l l' : within l -> within l' -> count_all l = count_all l' -> Permutation l l'.
Proof.
  intros Hl Hl' H. apply (Permutation_count_occ spec_dec). intros s.
  destruct (in_dec spec_dec s keys) as [Hk|Hk].
  - unfold count_all in H. clear -H Hk. revert H Hk. generalize keys. induction l0 as [|k ks IH]; cbn; intros H Hk; [contradiction|].
    injection H as H1 H2. destruct Hk as [<-|Hk]; auto.
  - rewrite keys_limit in Hk. pose proof (Hl s). pose proof (Hl' s). lia.
Qed.

Lemma denotes_within l t : denotes l t -> within l.
Proof.
  intros H s. apply denotes_iff in H. pose proof table_within as T. rewrite forallb_forall in T.
  specialize (T _ H). cbv beta in T. rewrite forallb_forall in T. apply Nat.leb_le, (T s), all_specs_in.
Qed.

Lemma counts_eqb_eq a b : counts_eqb a b = true <-> a = b.
Proof. unfold counts_eqb. destruct (list_eq_dec Nat.eq_dec a b); split; congruence. Qed.

Lemma by_counts_spec l t : within l ->
  (by_counts (count_all l) = Some t <-> exists l', denotes l' t /\ Permutation l l').
Proof.
  intros Hw. split.
  - unfold by_counts. destruct (find _ denotes_list) as [[l' t']|] eqn:Hf; [|discriminate].
    apply find_some in Hf as [Hin He]. apply counts_eqb_eq in He. cbn [fst snd] in *. intros H. injection H as ->.
    apply denotes_iff in Hin. exists l'. split; auto. apply counts_perm; auto. eapply denotes_within; eauto.
  - intros (l' & Hd & Hp). unfold by_counts.
    destruct (find _ denotes_list) as [[l2 t2]|] eqn:Hf.
    + apply find_some in Hf as [Hin He]. apply counts_eqb_eq in He. cbn [fst snd] in *. f_equal.
      apply denotes_iff in Hd. pose proof distinct_table as T. rewrite forallb_forall in T.
      specialize (T _ Hin). cbv beta in T. rewrite forallb_forall in T. specialize (T _ Hd). cbn [fst snd] in T.
      rewrite (proj2 (counts_eqb_eq _ _)) in T; [apply tree_eqb_eq, T|]. rewrite He. apply count_all_perm, Hp.
    + exfalso. apply denotes_iff in Hd. eapply find_none in Hf; [|exact Hd]. cbn [fst] in Hf.
      rewrite (proj2 (counts_eqb_eq _ _)) in Hf; [discriminate|]. symmetry. apply count_all_perm, Hp.
Qed.

Lemma start_enc : enc L 0 (count_all []) = 0%N.
Proof. reflexivity. Qed.
Lemma within_nil : within [].
Proof. intros s. cbn. lia. Qed.

(** ** Results *)

Lemma resolve_type specs t :
  resolve_decl_specs_to_type (CHAIN_HEAD (map T_SPEC specs)) = SpecOk t <-> names_type specs t.
Proof.
  cbn [resolve_decl_specs_to_type chain_elems]. rewrite <- start_enc.
  rewrite <- (app_nil_r (map T_SPEC specs)), loop_general by apply within_nil. rewrite app_nil_r. cbn [resolve_loop].
  unfold names_type. destruct (within_dec (type_part specs)) as [Hw|Hw].
  - rewrite final_spec by (apply within_all, Hw). rewrite <- by_counts_spec by exact Hw.
    destruct (by_counts _); split; congruence.
  - split; [discriminate|]. intros (l' & Hd & Hp). exfalso. apply Hw. eapply within_perm; [apply Permutation_sym, Hp|].
    eapply denotes_within; eauto.
Qed.

Lemma resolve_no_type specs : (forall t, ~ names_type specs t) ->
  resolve_decl_specs_to_type (CHAIN_HEAD (map T_SPEC specs)) = SpecDie.
Proof.
  intros H. destruct (resolve_decl_specs_to_type (CHAIN_HEAD (map T_SPEC specs))) as [t| |] eqn:Hr; auto.
  - apply resolve_type in Hr. exfalso. eapply H; eauto.
  - exfalso. revert Hr. cbn [resolve_decl_specs_to_type chain_elems]. rewrite <- start_enc.
    rewrite <- (app_nil_r (map T_SPEC specs)), loop_general by apply within_nil. rewrite app_nil_r. cbn [resolve_loop].
    destruct (within_dec (type_part specs)) as [Hw|Hw]; [|discriminate].
    rewrite final_spec by (apply within_all, Hw). destruct (by_counts _); discriminate.
Qed.

Lemma within_sane l : within (type_part l) <-> sane_prefix l.
Proof.
  unfold sane_prefix. set (l0 := type_part l). clearbody l0. clear l. split.
  - intros Hw. split.
    + intros x Hx. specialize (Hw x). rewrite (count_occ_In spec_dec) in Hx.
      destruct x; cbn in *; try lia; tauto.
    + destruct (le_dec (count_occ spec_dec l0 T_LONG_TS) 1) as [Hc|Hc].
      * exists l0. split; [apply Permutation_refl|]. left. apply (NoDup_count_occ spec_dec). intros x. specialize (Hw x).
        destruct x; cbn in *; lia.
      * assert (Hin : In T_LONG_TS l0) by (rewrite (count_occ_In spec_dec); lia).
        apply in_split in Hin as (a & b & ->). exists (T_LONG_TS :: a ++ b).
        split; [apply Permutation_sym, Permutation_middle|]. right. exists (a ++ b). split; auto.
        apply (NoDup_count_occ spec_dec). intros x. specialize (Hw x).
        rewrite count_occ_app in *. cbn [count_occ] in *. destruct (spec_dec T_LONG_TS x); [subst; cbn in *; lia|].
        destruct x; cbn in *; try lia. congruence.
  - intros [Hk (l' & Hp & Hn)] x. rewrite (proj1 (Permutation_count_occ spec_dec l0 l') Hp x).
    assert (Hx : (0 < count_occ spec_dec l' x)%nat -> (1 <= limit x)%nat).
    { intros H. apply (count_occ_In spec_dec) in H. apply (Permutation_in _ (Permutation_sym Hp)) in H. apply Hk in H.
      cbn in H. repeat (destruct H as [<-|H]; [cbn; lia|]). contradiction. }
    destruct Hn as [Hn|(l'' & -> & Hn)].
    + pose proof (proj1 (NoDup_count_occ spec_dec l') Hn x). lia.
    + pose proof (proj1 (NoDup_count_occ spec_dec l'') Hn x). rewrite count_add in *.
      destruct (spec_dec T_LONG_TS x); [subst; cbn; lia|]. lia.
Qed.

Lemma resolve_self specs i post : self_typed i ->
  (sane_prefix specs -> resolve_decl_specs_to_type (CHAIN_HEAD (map T_SPEC specs ++ i :: post)) = SpecOk i) /\
  (~ sane_prefix specs -> resolve_decl_specs_to_type (CHAIN_HEAD (map T_SPEC specs ++ i :: post)) = SpecDie).
Proof.
  intros Hi. cbn [resolve_decl_specs_to_type chain_elems]. rewrite <- start_enc, loop_general by apply within_nil.
  rewrite app_nil_r. rewrite <- within_sane. destruct (within_dec (type_part specs)) as [Hw|Hw]; split; intros H; try contradiction.
  - destruct Hi; reflexivity.
  - reflexivity.
Qed.

Lemma names_type_fun l t t' : names_type l t -> names_type l t' -> t = t'.
Proof. intros H H'. apply resolve_type in H, H'. congruence. Qed.

Lemma type_part_perm l l' : Permutation l l' -> Permutation (type_part l) (type_part l').
Proof.
  induction 1.
  - constructor.
  - rewrite !type_part_cons. destruct (storage_class x); [assumption|apply perm_skip; assumption].
  - rewrite !type_part_cons. destruct (storage_class x), (storage_class y); auto using perm_swap, Permutation_refl.
  - eapply Permutation_trans; eassumption.
Qed.
Lemma names_type_perm l l' t : Permutation l l' -> names_type l t -> names_type l' t.
Proof.
  intros H (l'' & Hd & Hp). exists l''. split; auto. eapply Permutation_trans; [|exact Hp].
  apply Permutation_sym, type_part_perm, H.
Qed.
Lemma resolve_perm specs specs' : Permutation specs specs' ->
  resolve_decl_specs_to_type (CHAIN_HEAD (map T_SPEC specs)) =
  resolve_decl_specs_to_type (CHAIN_HEAD (map T_SPEC specs')).
Proof.
  intros H. destruct (resolve_decl_specs_to_type (CHAIN_HEAD (map T_SPEC specs'))) eqn:Hr.
  - apply resolve_type. apply resolve_type in Hr. eapply names_type_perm; [apply Permutation_sym, H|exact Hr].
  - apply resolve_no_type. intros t Ht. apply (names_type_perm _ _ _ H), resolve_type in Ht. congruence.
  - exfalso. assert (Hn : forall t, ~ names_type specs' t) by (intros t Ht; apply resolve_type in Ht; congruence).
    apply resolve_no_type in Hn. congruence.
Qed.
