(** Lemmas about the hash table model. *)
From Coq Require Import ZArith List Bool Lia.
From Verif Require Import ListC ListCSpec ListCFacts HashTable.
Import ListNotations.
Local Open Scope Z_scope.

Lemma bin_of_mod ht k : 0 <= bits ht -> bin_of ht k = super_fast_hash k mod 2 ^ bits ht.
Proof.
  intros H. unfold bin_of. rewrite Z.shiftl_1_l.
  replace (2 ^ bits ht - 1) with (Z.ones (bits ht)) by (rewrite Z.ones_equiv; lia).
  apply Z.land_ones, H.
Qed.

Lemma bin_of_range ht k : 0 <= bits ht -> 0 <= bin_of ht k < 2 ^ bits ht.
Proof. intros H. rewrite bin_of_mod by exact H. apply Z.mod_pos_bound, Z.pow_pos_nonneg; lia. Qed.

(** The abstract state: bin [i], for [i] in [is], holds the elements [f i]. *)
Definition bins (ht : hash_table) (f : Z -> list Z) (is : list Z) : astate := map (fun i => (bin_addr ht i, f i)) is.

Lemma bins_upd ht f is j e : upd (bins ht f is) (bin_addr ht j) (cons e) =
  bins ht (fun i => if i =? j then e :: f i else f i) is.
Proof.
  unfold upd, bins. rewrite map_map. apply map_ext. intros i. cbn.
  destruct (Z.eqb_spec i j) as [->|H]; [rewrite Z.eqb_refl; reflexivity|].
  destruct (Z.eqb_spec (bin_addr ht i) (bin_addr ht j)); [unfold bin_addr in *; lia|reflexivity].
Qed.

Lemma cells_bins_in ht f is x : In x (cells (bins ht f is)) -> (exists i, In i is /\ x = bin_addr ht i) \/
  exists i, In i is /\ In x (f i).
Proof.
  unfold cells, bins. rewrite in_flat_map. intros (c & Hc & Hx). apply in_map_iff in Hc as (i & <- & Hi).
  cbn in Hx. destruct Hx as [<-|Hx]; eauto.
Qed.

Lemma init_bins_represents ht : forall n h is i, represents h (bins ht (fun _ => []) is) ->
  (forall j, In j is -> j < i) ->
  exists is', represents (init_bins h ht i n) (bins ht (fun _ => []) is') /\
    (forall j, In j is' <-> In j is \/ i <= j < i + Z.of_nat n).
Proof.
  induction n as [|n IH]; intros h is i Hr Hi.
  - exists is. split; [exact Hr|]. intros j. split; [auto|]. intros [H|H]; [exact H|lia].
  - cbn [init_bins].
    destruct (step_refines (length (cells (bins ht (fun _ => []) is))) h _ (OpInit (bin_addr ht i)) Hr) as (h1 & E1 & R1); [|lia|].
    { cbn. intros H. apply cells_bins_in in H as [(j & Hj & He)|(j & _ & [])]. apply Hi in Hj. unfold bin_addr in He. lia. }
    injection E1 as <-. change (astep (bins ht (fun _ => []) is) (OpInit (bin_addr ht i))) with (bins ht (fun _ => []) (i :: is)) in R1.
    destruct (IH _ (i :: is) (i + 1) R1) as (is' & R & Hin).
    { intros j [<-|Hj]; [lia|]. apply Hi in Hj. lia. }
    exists is'. split; [exact R|]. intros j. rewrite Hin. cbn [In]. intuition lia.
Qed.

(** The elements with keys in bin [i], most recent first. *)
Definition in_bin (ht : hash_table) (ins : list (list Z * Z)) (i : Z) : list Z :=
  map snd (filter (fun kv => bin_of ht (fst kv) =? i) (rev ins)).

Lemma in_bin_snoc ht ins k e i : in_bin ht (ins ++ [(k, e)]) i =
  if bin_of ht k =? i then e :: in_bin ht ins i else in_bin ht ins i.
Proof. unfold in_bin. rewrite rev_app_distr. cbn. destruct (_ =? _); reflexivity. Qed.

Lemma in_bin_incl ht ins i e : In e (in_bin ht ins i) -> In e (map snd ins).
Proof.
  unfold in_bin. rewrite in_map_iff. intros (x & <- & Hx). apply filter_In in Hx as [Hx _].
  apply in_rev in Hx. apply in_map, Hx.
Qed.

Lemma bins_ext ht f g is : (forall i, f i = g i) -> bins ht f is = bins ht g is.
Proof. intros H. unfold bins. apply map_ext. intros i. rewrite H. reflexivity. Qed.

Lemma adds_represent ht is h0 : 0 <= bits ht -> (forall j, 0 <= j < 2 ^ bits ht -> In j is) ->
  represents h0 (bins ht (fun _ => []) is) -> (forall j, In j is -> 0 <= j < 2 ^ bits ht) ->
  forall ins, NoDup (map snd ins) -> (forall e j, In e (map snd ins) -> 0 <= j < 2 ^ bits ht -> e <> bin_addr ht j) ->
  represents (fold_left (fun h kv => hash_table_add h ht (fst kv) (snd kv)) ins h0) (bins ht (in_bin ht ins) is).
Proof.
  intros Hb Hall Hr0 His. induction ins as [|[k e] ins IH] using rev_ind; intros Hnd Hne; [exact Hr0|].
  rewrite map_app in Hnd, Hne. cbn [map snd] in Hnd, Hne.
  rewrite fold_left_app. cbn [fold_left fst snd].
  assert (Hn : ~ In e (map snd ins)) by (apply NoDup_remove_2 in Hnd; rewrite app_nil_r in Hnd; exact Hnd).
  apply NoDup_remove_1 in Hnd. rewrite app_nil_r in Hnd.
  specialize (IH Hnd ltac:(intros x j Hx; apply Hne, in_or_app; left; exact Hx)).
  set (h := fold_left _ ins h0) in *.
  destruct (step_refines (length (cells (bins ht (in_bin ht ins) is))) h _ (OpAdd e (bin_addr ht (bin_of ht k))) IH) as (h1 & E1 & R1).
  - cbn. split.
    + intros H. apply cells_bins_in in H as [(j & Hj & He)|(j & _ & Hx)].
      * eapply Hne; [apply in_or_app; right; left; reflexivity|apply His, Hj|exact He].
      * apply in_bin_incl in Hx. contradiction.
    + unfold bins. rewrite map_map. cbn. apply in_map_iff. exists (bin_of ht k). split; [reflexivity|].
      apply Hall, bin_of_range, Hb.
  - lia.
  - injection E1 as <-. cbn [astep] in R1. rewrite bins_upd in R1. unfold hash_table_add.
    erewrite bins_ext; [exact R1|]. intros i. rewrite in_bin_snoc, Z.eqb_sym. reflexivity.
Qed.

Theorem hash_table_bins h a b ins ht h0 : 0 <= b -> hash_table_alloc h a b = (ht, h0) ->
  NoDup (map snd ins) -> (forall e i, In e (map snd ins) -> 0 <= i < 2 ^ b -> e <> a + 16 * i) ->
  forall k n, (length ins <= n)%nat ->
  list_for_each n (fold_left (fun h kv => hash_table_add h ht (fst kv) (snd kv)) ins h0) (hash_table_get_bin ht k) =
    Some (map snd (filter (fun kv => hash_table_get_bin ht (fst kv) =? hash_table_get_bin ht k) (rev ins))).
Proof.
  intros Hb Ha Hnd Hne k n Hn. unfold hash_table_alloc in Ha. injection Ha as <- <-.
  set (ht := mkhash a b) in *.
  destruct (init_bins_represents ht (Z.to_nat (Z.shiftl 1 b)) h [] 0) as (is & R & His).
  { split; [constructor|intros ? ? []]. } { intros j []. }
  rewrite Z2Nat.id in His by (rewrite Z.shiftl_1_l; apply Z.pow_nonneg; lia). rewrite Z.shiftl_1_l in His.
  assert (R' : represents (fold_left (fun h kv => hash_table_add h ht (fst kv) (snd kv)) ins
      (init_bins h ht 0 (Z.to_nat (Z.shiftl 1 b)))) (bins ht (in_bin ht ins) is)).
  { apply adds_represent; auto.
    - intros j Hj. apply His. right. cbn in Hj. lia.
    - intros j Hj. apply His in Hj as [[]|Hj]. cbn. lia. }
  destruct R' as [_ R']. unfold hash_table_get_bin.
  rewrite (for_each_chain _ _ (in_bin ht ins (bin_of ht k))).
  - f_equal. unfold in_bin. f_equal. apply filter_ext. intros kv. unfold bin_addr.
    destruct (Z.eqb_spec (bin_of ht (fst kv)) (bin_of ht k)) as [->|Hd]; [rewrite Z.eqb_refl; reflexivity|].
    symmetry. apply Z.eqb_neq. lia.
  - apply R'. unfold bins. apply in_map_iff. exists (bin_of ht k). split; [reflexivity|]. apply His. right.
    pose proof (bin_of_range ht k Hb) as H. cbn in H. lia.
  - unfold in_bin. rewrite map_length. etransitivity; [|exact Hn]. rewrite <- (rev_length ins).
    generalize (rev ins). intros l. induction l as [|x l IHl]; cbn; [lia|]. destruct (_ =? _); cbn; lia.
Qed.
