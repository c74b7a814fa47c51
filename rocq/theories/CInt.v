(** Machine integers on the LP64 target, the GMP conversions used by the
    evaluator, and little-endian byte strings.

    The C types come from the [defctype] table, /repo/src/c.lang:255-269. *)
From Coq Require Import ZArith List Bool Lia.
Import ListNotations.
Local Open Scope Z_scope.

(** /repo/src/c.lang:255-267 (the [defctype] entries other than [D_T_PTR], which
    carries a sub-tree and is a constructor of [tree], see Tree.v). *)
Inductive ctype : Set :=
| D_T_CHAR | D_T_SHORT | D_T_INT | D_T_LONG | D_T_LONGLONG
| D_T_UCHAR | D_T_USHORT | D_T_UINT | D_T_ULONG | D_T_ULONGLONG
| D_T_FLOAT | D_T_DOUBLE | D_T_LONGDOUBLE.

(** [sizeof(CTYPE)], used at /repo/src/evaluate.c:2385-2397.  Simplification:
    fixed to the x86-64 LP64 sizes. *)
Definition csize (c : ctype) : Z :=
  match c with
  | D_T_CHAR | D_T_UCHAR => 1
  | D_T_SHORT | D_T_USHORT => 2
  | D_T_INT | D_T_UINT | D_T_FLOAT => 4
  | D_T_LONG | D_T_LONGLONG | D_T_ULONG | D_T_ULONGLONG | D_T_DOUBLE => 8
  | D_T_LONGDOUBLE => 16
  end.

(** The range [D_T_CHAR ... D_T_ULONGLONG] of /repo/src/evaluate.c:349 and 1238. *)
Definition is_intty (c : ctype) : bool :=
  match c with
  | D_T_FLOAT | D_T_DOUBLE | D_T_LONGDOUBLE => false
  | _ => true
  end.

(** Signedness of the C types named in /repo/src/c.lang:255-264.  Plain [char]
    is signed on the modelled target. *)
Definition csigned (c : ctype) : bool :=
  match c with
  | D_T_CHAR | D_T_SHORT | D_T_INT | D_T_LONG | D_T_LONGLONG => true
  | _ => false
  end.

(** Two's complement reading of the low [n] bits.
    The conversion to a signed type in e.g. /repo/src/evaluate.c:1162-1168. *)
Definition smod (n z : Z) : Z :=
  let u := z mod 2 ^ n in
  if u <? 2 ^ (n - 1) then u else u - 2 ^ n.

(** The conversion [(CTYPE)val] between integer types as done by
    /repo/src/evaluate.c:1162-1168 and the [DEFCAST] lines 1861-1910. *)
Definition conv (c : ctype) (z : Z) : Z :=
  if csigned c then smod (8 * csize c) z else z mod 2 ^ (8 * csize c).

(** GMP's [mpz_get_si], called at /repo/src/evaluate.c:1153 and in the
    conditions (1993, 2023, 2046, 2060).  The low 63 bits of the absolute value
    with the sign kept. *)
Definition mpz_get_si (z : Z) : Z :=
  if 0 <=? z then z mod 2 ^ 63 else -1 - (((- z) - 1) mod 2 ^ 63).

(** GMP's [mpz_get_ui], called at /repo/src/evaluate.c:619, 1219, 1433, 1455,
    2309, 2366.  The low 64 bits of the absolute value. *)
Definition mpz_get_ui (z : Z) : Z := (Z.abs z) mod 2 ^ 64.

(** [size_t] arithmetic. As for the sizes in /repo/src/evaluate.c:619, 1219. *)
Definition u64 (z : Z) : Z := z mod 2 ^ 64.

(** [n] bytes, little endian, of [z] (two's complement).
    How the members of [union value] (/repo/src/tree.h:51-56) lie in memory on the modelled target. *)
Fixpoint le_bytes (n : nat) (z : Z) : list Z :=
  match n with
  | O => []
  | S n => (z mod 256) :: le_bytes n (z / 256)
  end.

(** Little-endian unsigned reading of [n] bytes of a memory at [a].  The content
    of a cell is taken modulo 256.
    How the members of [union value] (/repo/src/tree.h:51-56) are read on the modelled target. *)
Fixpoint le_load (m : Z -> Z) (a : Z) (n : nat) : Z :=
  match n with
  | O => 0
  | S n => (m a) mod 256 + 256 * le_load m (a + 1) n
  end.

(** Writing a list of bytes at [a]. As an assignment to a member of [union value] does (/repo/src/tree.h:51-56). *)
Definition store_bytes (m : Z -> Z) (a : Z) (l : list Z) : Z -> Z :=
  fun x =>
    if (a <=? x) && (x <? a + Z.of_nat (length l))
    then nth (Z.to_nat (x - a)) l 0 else m x.

(** The member of [union value] selected by an integer type, read as a C value
    (/repo/src/tree.h [union value]; used at evaluate.c:317, 1866). *)
Definition load_c (m : Z -> Z) (a : Z) (c : ctype) : Z :=
  conv c (le_load m a (Z.to_nat (csize c))).

(** The bytes stored by an assignment to that member. E.g. /repo/src/evaluate.c:1162-1168. *)
Definition bytes_c (c : ctype) (z : Z) : list Z :=
  le_bytes (Z.to_nat (csize c)) z.
