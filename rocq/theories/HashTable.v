(** Model of src/hash_table.c.  Keys are C strings, given by their bytes (0 .. 255) without the
    terminating NUL.  The lists are those of [ListC]. *)
From Coq Require Import ZArith List Bool.
From Verif Require Import ListC.
Import ListNotations.
Local Open Scope Z_scope.

(** Arithmetic on uint32_t, src/hash_table.c:37-81. *)
Definition u32 (z : Z) : Z := z mod 2 ^ 32.
(** [x << n] on uint32_t, src/hash_table.c:49-78. *)
Definition shl32 (x n : Z) : Z := u32 (Z.shiftl x n).
(** [(signed char)c], src/hash_table.c:58, 66. *)
Definition schar (c : Z) : Z := if c <? 128 then c else c - 256.

(** [get16bits], src/hash_table.c:32-35. *)
Definition get16bits (lo hi : Z) : Z := u32 (Z.shiftl hi 8 + lo).

(** One round of the main loop, src/hash_table.c:48-54. *)
Definition hash_round (hash a b c d : Z) : Z :=
  let hash := u32 (hash + get16bits a b) in
  let tmp := Z.lxor (shl32 (get16bits c d) 11) hash in
  let hash := Z.lxor (shl32 hash 16) tmp in
  u32 (hash + Z.shiftr hash 11).

(** The main loop and the end cases, src/hash_table.c:47-69.  Simplification: [(signed char)c << 18] for
    negative [c] is undefined in ISO C; gcc shifts arithmetically. *)
Fixpoint hash_loop (hash : Z) (data : list Z) : Z :=
  match data with
  | a :: b :: c :: d :: data => hash_loop (hash_round hash a b c d) data
  | [a; b; c] =>
      let hash := u32 (hash + get16bits a b) in
      let hash := Z.lxor hash (shl32 hash 16) in
      let hash := Z.lxor hash (u32 (Z.shiftl (schar c) 18)) in
      u32 (hash + Z.shiftr hash 11)
  | [a; b] =>
      let hash := u32 (hash + get16bits a b) in
      let hash := Z.lxor hash (shl32 hash 11) in
      u32 (hash + Z.shiftr hash 17)
  | [a] =>
      let hash := u32 (hash + schar a) in
      let hash := Z.lxor hash (shl32 hash 10) in
      u32 (hash + Z.shiftr hash 1)
  | [] => hash
  end.

(** The avalanche, src/hash_table.c:71-78. *)
Definition hash_final (hash : Z) : Z :=
  let hash := Z.lxor hash (shl32 hash 3) in
  let hash := u32 (hash + Z.shiftr hash 5) in
  let hash := Z.lxor hash (shl32 hash 4) in
  let hash := u32 (hash + Z.shiftr hash 17) in
  let hash := Z.lxor hash (shl32 hash 25) in
  u32 (hash + Z.shiftr hash 6).

(** [super_fast_hash], src/hash_table.c:37-81. *)
Definition super_fast_hash (data : list Z) : Z :=
  match data with
  | [] => 0
  | _ => hash_final (hash_loop (u32 (Z.of_nat (length data))) data)
  end.

(** src/hash_table.h:7-10. *)
Record hash_table := mkhash { table : Z; bits : Z }.

(** Address of [ht->table[i]]; a list cell has 16 bytes, src/hash_table.c:13-15, 86, 92. *)
Definition bin_addr (ht : hash_table) (i : Z) : Z := table ht + 16 * i.

(** The initialisation loop, src/hash_table.c:14-15. *)
Fixpoint init_bins (h : heap) (ht : hash_table) (i : Z) (n : nat) : heap :=
  match n with
  | O => h
  | S n => init_bins (INIT_LIST h (bin_addr ht i)) ht (i + 1) n
  end.

(** [hash_table_alloc], src/hash_table.c:6-18; [a] is the address calloc returns for the table.
    Simplification: calloc does not fail. *)
Definition hash_table_alloc (h : heap) (a b : Z) : hash_table * heap :=
  let ht := mkhash a b in (ht, init_bins h ht 0 (Z.to_nat (Z.shiftl 1 b))).

(** The bin of a key, src/hash_table.c:85, 91. *)
Definition bin_of (ht : hash_table) (key : list Z) : Z :=
  Z.land (super_fast_hash key) (Z.shiftl 1 (bits ht) - 1).

(** [hash_table_add], src/hash_table.c:83-87. *)
Definition hash_table_add (h : heap) (ht : hash_table) (key : list Z) (element : Z) : heap :=
  list_add h element (bin_addr ht (bin_of ht key)).

(** [hash_table_get_bin], src/hash_table.c:89-93. *)
Definition hash_table_get_bin (ht : hash_table) (key : list Z) : Z := bin_addr ht (bin_of ht key).
