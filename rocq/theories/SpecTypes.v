(** The meaning of declaration specifiers; used by C28.  The table is the one of C11 6.7.2p2
    for the types bic knows, char taken as signed char. *)
From Coq Require Import List Permutation.
From Verif Require Import CInt Tree.
Import ListNotations.

(** [denotes l t]: the type specifiers [l], in this order, name the type [t]. *)
Inductive denotes : list spec -> tree -> Prop :=
| d_void : denotes [T_VOID_TS] D_T_VOID
| d_char : denotes [T_CHAR_TS] (D_T D_T_CHAR)
| d_schar : denotes [T_SIGNED_TS; T_CHAR_TS] (D_T D_T_CHAR)
| d_uchar : denotes [T_UNSIGNED_TS; T_CHAR_TS] (D_T D_T_UCHAR)
| d_short : denotes [T_SHORT_TS] (D_T D_T_SHORT)
| d_sshort : denotes [T_SIGNED_TS; T_SHORT_TS] (D_T D_T_SHORT)
| d_shorti : denotes [T_SHORT_TS; T_INT_TS] (D_T D_T_SHORT)
| d_sshorti : denotes [T_SIGNED_TS; T_SHORT_TS; T_INT_TS] (D_T D_T_SHORT)
| d_ushort : denotes [T_UNSIGNED_TS; T_SHORT_TS] (D_T D_T_USHORT)
| d_ushorti : denotes [T_UNSIGNED_TS; T_SHORT_TS; T_INT_TS] (D_T D_T_USHORT)
| d_int : denotes [T_INT_TS] (D_T D_T_INT)
| d_signed : denotes [T_SIGNED_TS] (D_T D_T_INT)
| d_sint : denotes [T_SIGNED_TS; T_INT_TS] (D_T D_T_INT)
| d_unsigned : denotes [T_UNSIGNED_TS] (D_T D_T_UINT)
| d_uint : denotes [T_UNSIGNED_TS; T_INT_TS] (D_T D_T_UINT)
| d_long : denotes [T_LONG_TS] (D_T D_T_LONG)
| d_slong : denotes [T_SIGNED_TS; T_LONG_TS] (D_T D_T_LONG)
| d_longi : denotes [T_LONG_TS; T_INT_TS] (D_T D_T_LONG)
| d_slongi : denotes [T_SIGNED_TS; T_LONG_TS; T_INT_TS] (D_T D_T_LONG)
| d_ulong : denotes [T_UNSIGNED_TS; T_LONG_TS] (D_T D_T_ULONG)
| d_ulongi : denotes [T_UNSIGNED_TS; T_LONG_TS; T_INT_TS] (D_T D_T_ULONG)
| d_llong : denotes [T_LONG_TS; T_LONG_TS] (D_T D_T_LONGLONG)
| d_sllong : denotes [T_SIGNED_TS; T_LONG_TS; T_LONG_TS] (D_T D_T_LONGLONG)
| d_llongi : denotes [T_LONG_TS; T_LONG_TS; T_INT_TS] (D_T D_T_LONGLONG)
| d_sllongi : denotes [T_SIGNED_TS; T_LONG_TS; T_LONG_TS; T_INT_TS] (D_T D_T_LONGLONG)
| d_ullong : denotes [T_UNSIGNED_TS; T_LONG_TS; T_LONG_TS] (D_T D_T_ULONGLONG)
| d_ullongi : denotes [T_UNSIGNED_TS; T_LONG_TS; T_LONG_TS; T_INT_TS] (D_T D_T_ULONGLONG)
| d_float : denotes [T_FLOAT_TS] (D_T D_T_FLOAT)
| d_double : denotes [T_DOUBLE_TS] (D_T D_T_DOUBLE)
| d_ldouble : denotes [T_LONG_TS; T_DOUBLE_TS] (D_T D_T_LONGDOUBLE).

(** Storage classes do not influence the type. *)
Definition type_part (l : list spec) : list spec :=
  filter (fun x => match x with T_EXTERN | T_TYPEDEF | T_STATIC => false | _ => true end) l.

(** The specifiers [l], in any order and mixed with storage classes, name the type [t]. *)
Definition names_type (l : list spec) (t : tree) : Prop :=
  exists l', denotes l' t /\ Permutation (type_part l) l'.

(** Specifiers that may stand before a name, struct, union or enum: every type specifier at
    most once, long at most twice, and none of the others. *)
Definition sane_prefix (l : list spec) : Prop :=
  (forall x, In x (type_part l) -> In x [T_VOID_TS; T_CHAR_TS; T_SHORT_TS; T_INT_TS; T_LONG_TS; T_FLOAT_TS;
                                         T_DOUBLE_TS; T_SIGNED_TS; T_UNSIGNED_TS]) /\
  (exists l', Permutation (type_part l) l' /\ (NoDup l' \/ exists l'', l' = T_LONG_TS :: l'' /\ NoDup l'')).

(** A specifier that is a type by itself: a typedef name, struct, union or enum. *)
Inductive self_typed : tree -> Prop :=
| self_name x : self_typed (T_IDENTIFIER x)
| self_compound l t i d : self_typed (T_DECL_COMPOUND l t i d)
| self_enum n es : self_typed (T_ENUMERATOR n es).
