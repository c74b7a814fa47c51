(** Property theorems about the hash table: C35. *)
From Coq Require Import ZArith List Bool Lia.
From Verif Require Import ListC ListCSpec HashTable HashTableFacts.
Import ListNotations.
Local Open Scope Z_scope.

(** C35.  After any sequence [ins] of insertions, the bin of a key holds, most recent first, exactly
    the elements whose keys have the same bin.  Elements are distinct list cells outside the
    table of [2^b] cells at [a]. *)
Theorem C35_bins : forall h a b ins ht h0, 0 <= b -> hash_table_alloc h a b = (ht, h0) ->
  NoDup (map snd ins) -> (forall e i, In e (map snd ins) -> 0 <= i < 2 ^ b -> e <> a + 16 * i) ->
  forall k n, (length ins <= n)%nat ->
  list_for_each n (fold_left (fun h kv => hash_table_add h ht (fst kv) (snd kv)) ins h0) (hash_table_get_bin ht k) =
    Some (map snd (filter (fun kv => hash_table_get_bin ht (fst kv) =? hash_table_get_bin ht k) (rev ins))).
Proof. exact hash_table_bins. Qed.
Print Assumptions C35_bins.

(** The bin of a key is the one selected by the low bits of its hash, and lies within the table. *)
Theorem C35_in_table : forall h a b ht h0 k, 0 <= b -> hash_table_alloc h a b = (ht, h0) ->
  hash_table_get_bin ht k = a + 16 * (super_fast_hash k mod 2 ^ b) /\ 0 <= super_fast_hash k mod 2 ^ b < 2 ^ b.
Proof.
  intros h a b ht h0 k Hb Ha. injection Ha as <- _. split.
  - unfold hash_table_get_bin, bin_addr. cbn [table]. f_equal. f_equal. apply (bin_of_mod (mkhash a b)). exact Hb.
  - apply Z.mod_pos_bound, Z.pow_pos_nonneg; lia.
Qed.
Print Assumptions C35_in_table.

(** In particular everything inserted under a key is found in its bin. *)
Theorem C35_found : forall h a b ins ht h0 k e n, 0 <= b -> hash_table_alloc h a b = (ht, h0) ->
  NoDup (map snd ins) -> (forall e i, In e (map snd ins) -> 0 <= i < 2 ^ b -> e <> a + 16 * i) ->
  (length ins <= n)%nat -> In (k, e) ins ->
  exists l, list_for_each n (fold_left (fun h kv => hash_table_add h ht (fst kv) (snd kv)) ins h0)
    (hash_table_get_bin ht k) = Some l /\ In e l.
Proof.
  intros h a b ins ht h0 k e n Hb Ha Hnd Hne Hn Hin. eexists. split; [eapply C35_bins; eauto|].
  apply in_map_iff. exists (k, e). split; [reflexivity|]. apply filter_In. split; [apply in_rev in Hin; exact Hin|].
  cbn. apply Z.eqb_refl.
Qed.
Print Assumptions C35_found.

(** A table with two bins at 1600, keys "a", "bc", "hello" and "a" again. *)
Definition ka : list Z := [97].
Definition kbc : list Z := [98; 99].
Definition khello : list Z := [104; 101; 108; 108; 111].
Definition four : list (list Z * Z) := [(ka, 10); (kbc, 20); (khello, 30); (ka, 40)].
Example C35_nontrivial :
  let h := mkheap (fun _ => 77) (fun _ => 78) in
  let '(ht, h0) := hash_table_alloc h 1600 1 in
  NoDup (map snd four) /\ (forall e i, In e (map snd four) -> 0 <= i < 2 ^ 1 -> e <> 1600 + 16 * i) /\
  let h' := fold_left (fun h kv => hash_table_add h ht (fst kv) (snd kv)) four h0 in
  list_for_each 9 h' (hash_table_get_bin ht ka) = Some [40; 20; 10] /\
  list_for_each 9 h' (hash_table_get_bin ht khello) = Some [30].
Proof.
  cbn [hash_table_alloc]. split; [repeat constructor; cbn; intuition discriminate|]. split.
  - intros e i H Hi. cbn in H. change (2 ^ 1) with 2 in Hi. lia.
  - vm_compute. auto.
Qed.
