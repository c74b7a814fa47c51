(** Facts about machine integers and little-endian bytes. *)
From Coq Require Import ZArith List Bool Lia.
From Verif Require Import CInt.
Import ListNotations.
Local Open Scope Z_scope.

Lemma csize_pos c : 0 < csize c.
Proof. destruct c; reflexivity. Qed.

Lemma csize_nat c : Z.of_nat (Z.to_nat (csize c)) = csize c.
Proof. destruct c; reflexivity. Qed.

Lemma smod_range n z : 0 < n -> - 2 ^ (n - 1) <= smod n z < 2 ^ (n - 1).
Proof.
  intros Hn. unfold smod. pose proof (Z.mod_pos_bound z (2 ^ n)) as Hb.
  assert (Hp : 2 ^ n = 2 * 2 ^ (n - 1)).
  { rewrite <- Z.pow_succ_r by lia. f_equal. lia. }
  assert (0 < 2 ^ (n - 1)) by (apply Z.pow_pos_nonneg; lia).
  destruct (Z.ltb_spec (z mod 2 ^ n) (2 ^ (n - 1))); lia.
Qed.

Lemma smod_cong n z : 0 < n -> exists q, smod n z = z + q * 2 ^ n.
Proof.
  intros Hn. unfold smod. assert (0 < 2 ^ n) by (apply Z.pow_pos_nonneg; lia).
  pose proof (Z.div_mod z (2 ^ n) ltac:(lia)) as Hd.
  destruct (_ <? _); [exists (- (z / 2 ^ n)) | exists (- (z / 2 ^ n) - 1)]; lia.
Qed.

Lemma smod_eq n z w : 0 < n -> - 2 ^ (n - 1) <= w < 2 ^ (n - 1) -> (exists q, w = z + q * 2 ^ n) ->
  smod n z = w.
Proof.
  intros Hn Hw [q Hq]. destruct (smod_cong n z Hn) as [p Hp].
  pose proof (smod_range n z Hn) as Hr.
  assert (H2 : 2 ^ n = 2 * 2 ^ (n - 1)).
  { rewrite <- Z.pow_succ_r by lia. f_equal. lia. }
  assert (0 < 2 ^ (n - 1)) by (apply Z.pow_pos_nonneg; lia).
  assert (p = q); [|subst; lia].
  assert (smod n z - w = (p - q) * 2 ^ n) by lia. nia.
Qed.

Lemma smod_id n z : 0 < n -> - 2 ^ (n - 1) <= z < 2 ^ (n - 1) -> smod n z = z.
Proof. intros. apply smod_eq; auto. exists 0. lia. Qed.

Lemma smod_mod n z : 0 < n -> smod n (z mod 2 ^ n) = smod n z.
Proof. intros Hn. unfold smod. rewrite Z.mod_mod; auto. apply Z.pow_nonzero; lia. Qed.

Lemma conv_mod c z : conv c (z mod 2 ^ (8 * csize c)) = conv c z.
Proof.
  unfold conv. destruct (csigned c).
  - apply smod_mod. destruct c; reflexivity.
  - apply Z.mod_mod. destruct c; discriminate.
Qed.

Lemma conv_wraps c z : 
  (exists q, conv c z = z + q * 2 ^ (8 * csize c)) /\
  if csigned c then - 2 ^ (8 * csize c - 1) <= conv c z < 2 ^ (8 * csize c - 1)
  else 0 <= conv c z < 2 ^ (8 * csize c).
Proof.
  assert (Hp : 0 < 8 * csize c) by (pose proof (csize_pos c); lia).
  unfold conv. destruct (csigned c).
  - split; [apply smod_cong | apply smod_range]; auto.
  - assert (0 < 2 ^ (8 * csize c)) by (apply Z.pow_pos_nonneg; lia). split.
    + exists (- (z / 2 ^ (8 * csize c))). rewrite Z.mod_eq by lia. lia.
    + apply Z.mod_pos_bound. lia.
Qed.

Lemma conv_unique c z w :
  (exists q, w = z + q * 2 ^ (8 * csize c)) ->
  (if csigned c then - 2 ^ (8 * csize c - 1) <= w < 2 ^ (8 * csize c - 1)
   else 0 <= w < 2 ^ (8 * csize c)) -> conv c z = w.
Proof.
  assert (Hp : 0 < 8 * csize c) by (pose proof (csize_pos c); lia).
  unfold conv. destruct (csigned c); intros [q Hq] Hr.
  - apply smod_eq; eauto.
  - subst w. rewrite <- (Z.mod_small _ _ Hr), Z.mod_add; [reflexivity|]. apply Z.pow_nonzero; lia.
Qed.

Lemma conv_cong c z q : conv c (z + q * 2 ^ (8 * csize c)) = conv c z.
Proof.
  apply conv_unique.
  - destruct (proj1 (conv_wraps c z)) as [p Hp]. exists (p - q). lia.
  - apply conv_wraps.
Qed.

Lemma conv_conv c z : conv c (conv c z) = conv c z.
Proof. destruct (proj1 (conv_wraps c z)) as [q Hq]. rewrite Hq at 1. apply conv_cong. Qed.

(** ** Bytes *)

Lemma le_bytes_length n z : List.length (le_bytes n z) = n.
Proof. revert z. induction n; cbn; intros; auto. Qed.

Lemma bytes_c_length c z : Z.of_nat (List.length (bytes_c c z)) = csize c.
Proof. unfold bytes_c. rewrite le_bytes_length. apply csize_nat. Qed.

Lemma le_load_ext m m' a n :
  (forall x, a <= x < a + Z.of_nat n -> m' x = m x) -> le_load m' a n = le_load m a n.
Proof.
  revert a. induction n; cbn [le_load]; intros a H; [reflexivity|].
  rewrite H by lia. rewrite IHn; [reflexivity|]. intros x Hx. apply H. lia.
Qed.

Lemma store_bytes_out m a l x : x < a \/ a + Z.of_nat (List.length l) <= x -> store_bytes m a l x = m x.
Proof.
  intros H. unfold store_bytes. destruct (Z.leb_spec a x), (Z.ltb_spec x (a + Z.of_nat (List.length l)));
    cbn; auto; lia.
Qed.

Lemma store_bytes_cons m a b l x :
  store_bytes m a (b :: l) x = store_bytes (fun y => if y =? a then b else m y) (a + 1) l x.
Proof.
  unfold store_bytes. cbn [List.length].
  destruct (Z.leb_spec a x), (Z.leb_spec (a + 1) x),
    (Z.ltb_spec x (a + Z.of_nat (S (List.length l)))),
    (Z.ltb_spec x (a + 1 + Z.of_nat (List.length l))), (Z.eqb_spec x a); cbn; try lia; auto.
  - replace (Z.to_nat (x - a)) with (S (Z.to_nat (x - (a + 1)))) by lia. reflexivity.
  - subst. rewrite Z.sub_diag. reflexivity.
Qed.

Lemma le_load_store n : forall m a z, le_load (store_bytes m a (le_bytes n z)) a n = z mod 256 ^ Z.of_nat n.
Proof.
  induction n; intros m a z.
  - cbn. rewrite Z.mod_1_r. reflexivity.
  - cbn [le_load le_bytes].
    rewrite (le_load_ext (store_bytes (fun y => if y =? a then z mod 256 else m y) (a + 1) (le_bytes n (z / 256)))
               (store_bytes m a (z mod 256 :: le_bytes n (z / 256)))) by (intros; apply store_bytes_cons).
    rewrite IHn. rewrite store_bytes_cons, store_bytes_out by lia. rewrite Z.eqb_refl.
    rewrite Nat2Z.inj_succ, Z.pow_succ_r by lia.
    rewrite Z.mod_mod by lia.
    assert (0 < 256 ^ Z.of_nat n) by (apply Z.pow_pos_nonneg; lia).
    rewrite Z.rem_mul_r by lia. reflexivity.
Qed.

Lemma pow256 n : 0 <= n -> 256 ^ n = 2 ^ (8 * n).
Proof. intros. rewrite Z.pow_mul_r by lia. reflexivity. Qed.

Lemma load_store_c m a c z : load_c (store_bytes m a (bytes_c c z)) a c = conv c z.
Proof.
  unfold load_c, bytes_c. rewrite le_load_store, csize_nat, pow256 by (pose proof (csize_pos c); lia).
  apply conv_mod.
Qed.

Lemma le_load_bound m a n : 0 <= le_load m a n < 256 ^ Z.of_nat n.
Proof.
  revert a. induction n; intros a; cbn [le_load]; [cbn; lia|].
  rewrite Nat2Z.inj_succ, Z.pow_succ_r by lia.
  pose proof (Z.mod_pos_bound (m a) 256). specialize (IHn (a + 1)). lia.
Qed.

(** A load of the low bytes of a longer load. *)
Lemma le_load_prefix m a k n : (k <= n)%nat -> le_load m a n mod 256 ^ Z.of_nat k = le_load m a k.
Proof.
  revert a n. induction k; intros a n Hk.
  - cbn. apply Z.mod_1_r.
  - destruct n; [lia|]. cbn [le_load].
    rewrite Nat2Z.inj_succ, Z.pow_succ_r by lia.
    assert (0 < 256 ^ Z.of_nat k) by (apply Z.pow_pos_nonneg; lia).
    rewrite Z.rem_mul_r by lia.
    replace (m a mod 256 + 256 * le_load m (a + 1) n) with (m a mod 256 + le_load m (a + 1) n * 256) by lia.
    rewrite Z.mod_add, Z.mod_mod by lia. f_equal. f_equal.
    rewrite Z.div_add by lia. rewrite Z.div_small by (apply Z.mod_pos_bound; lia). cbn [Z.add].
    rewrite IHk; [reflexivity|lia].
Qed.

Lemma load_c_ext m m' a c :
  (forall x, a <= x < a + csize c -> m' x = m x) -> load_c m' a c = load_c m a c.
Proof.
  intros H. unfold load_c. f_equal. apply le_load_ext. rewrite csize_nat. exact H.
Qed.

Lemma smod_32_get_si z : smod 32 (mpz_get_si z) = smod 32 z.
Proof.
  apply smod_eq; [lia|apply smod_range; lia|]. destruct (smod_cong 32 z ltac:(lia)) as [q Hq]. rewrite Hq. unfold mpz_get_si.
  destruct (Z.leb_spec 0 z).
  - exists (q + z / 2 ^ 63 * 2 ^ 31). pose proof (Z.div_mod z (2 ^ 63) ltac:(discriminate)). lia.
  - exists (q - (- z - 1) / 2 ^ 63 * 2 ^ 31). pose proof (Z.div_mod (- z - 1) (2 ^ 63) ltac:(discriminate)). lia.
Qed.
Lemma mpz_get_si_small z : - 2 ^ 63 <= z < 2 ^ 63 -> mpz_get_si z = z.
Proof.
  intros H. unfold mpz_get_si. destruct (Z.leb_spec 0 z).
  - apply Z.mod_small. lia.
  - rewrite Z.mod_small by lia. lia.
Qed.
