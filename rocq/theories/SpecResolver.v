(** The generated function [resolve_decl_specs_to_type].

    The generator is /repo/src/genspecresolver.cpp; its input is the table
    /repo/src/c.lang:271-316. *)
From Coq Require Import ZArith List String Bool.
From Verif Require Import CInt Tree.
Import ListNotations.

(** [noBitsPerSpecifier] in the order of the std::map (alphabetical), with the
    maximum number of occurrences over all specifier lists
    (/repo/src/genspecresolver.cpp:33-45 on c.lang:271-309). *)
Definition no_bits_per_specifier : list (spec * nat) :=
  [(T_CHAR_TS, 1); (T_DOUBLE_TS, 1); (T_FLOAT_TS, 1); (T_INT_TS, 1); (T_LONG_TS, 2);
   (T_SHORT_TS, 1); (T_SIGNED_TS, 1); (T_UNSIGNED_TS, 1); (T_VOID_TS, 1)]%nat.

(** Decidable equality of specifier names (the std::map key comparison). /repo/src/genspecresolver.cpp:33-45. *)
Definition spec_eqb (a b : spec) : bool :=
  match a, b with
  | T_TYPEDEF, T_TYPEDEF | T_EXTERN, T_EXTERN | T_STATIC, T_STATIC | T_AUTO, T_AUTO
  | T_REGISTER, T_REGISTER | T_VOID_TS, T_VOID_TS | T_CHAR_TS, T_CHAR_TS
  | T_SHORT_TS, T_SHORT_TS | T_INT_TS, T_INT_TS | T_LONG_TS, T_LONG_TS
  | T_FLOAT_TS, T_FLOAT_TS | T_DOUBLE_TS, T_DOUBLE_TS | T_SIGNED_TS, T_SIGNED_TS
  | T_UNSIGNED_TS, T_UNSIGNED_TS | T_BOOL_TS, T_BOOL_TS | T_CONST, T_CONST
  | T_RESTRICT, T_RESTRICT | T_VOLATILE, T_VOLATILE | T_INLINE, T_INLINE => true
  | _, _ => false
  end.

(** Bit positions given out in map order, /repo/src/genspecresolver.cpp:47-70:
    result is (first bit, number of bits), or None for a specifier that occurs
    in no list. *)
Fixpoint bit_alloc (l : list (spec * nat)) (cur : nat) (s : spec) : option (nat * nat) :=
  match l with
  | [] => None
  | (s', n) :: l => if spec_eqb s s' then Some (cur, n) else bit_alloc l (cur + n) s
  end.

(** The table of accepted specifier lists, /repo/src/c.lang:271-309, in order. *)
Definition spec_maps : list (tree * list (list spec)) :=
  [ (D_T D_T_CHAR, [[T_CHAR_TS]; [T_SIGNED_TS; T_CHAR_TS]]);
    (D_T D_T_SHORT, [[T_SHORT_TS]; [T_SIGNED_TS; T_SHORT_TS]; [T_SHORT_TS; T_INT_TS];
                     [T_SIGNED_TS; T_SHORT_TS; T_INT_TS]]);
    (D_T D_T_INT, [[T_INT_TS]; [T_SIGNED_TS]; [T_SIGNED_TS; T_INT_TS]]);
    (D_T D_T_LONG, [[T_LONG_TS]; [T_SIGNED_TS; T_LONG_TS]; [T_LONG_TS; T_INT_TS];
                    [T_SIGNED_TS; T_LONG_TS; T_INT_TS]]);
    (D_T D_T_LONGLONG, [[T_LONG_TS; T_LONG_TS]; [T_SIGNED_TS; T_LONG_TS; T_LONG_TS];
                        [T_LONG_TS; T_LONG_TS; T_INT_TS];
                        [T_SIGNED_TS; T_LONG_TS; T_LONG_TS; T_INT_TS]]);
    (D_T D_T_UCHAR, [[T_UNSIGNED_TS; T_CHAR_TS]]);
    (D_T D_T_USHORT, [[T_UNSIGNED_TS; T_SHORT_TS]; [T_UNSIGNED_TS; T_SHORT_TS; T_INT_TS]]);
    (D_T D_T_UINT, [[T_UNSIGNED_TS]; [T_UNSIGNED_TS; T_INT_TS]]);
    (D_T D_T_ULONG, [[T_UNSIGNED_TS; T_LONG_TS]; [T_UNSIGNED_TS; T_LONG_TS; T_INT_TS]]);
    (D_T D_T_ULONGLONG, [[T_UNSIGNED_TS; T_LONG_TS; T_LONG_TS];
                         [T_UNSIGNED_TS; T_LONG_TS; T_LONG_TS; T_INT_TS]]);
    (D_T D_T_FLOAT, [[T_FLOAT_TS]]);
    (D_T D_T_DOUBLE, [[T_DOUBLE_TS]]);
    (D_T D_T_LONGDOUBLE, [[T_LONG_TS; T_DOUBLE_TS]]);
    (D_T_VOID, [[T_VOID_TS]]) ].

(** Sets of bits as N. *)
Local Open Scope N_scope.

(** The generated code for one specifier inside the loop,
    /repo/src/genspecresolver.cpp:51-70: sets the first free of the [n] bits
    starting at [b]; None is the call of [eval_die]. *)
Fixpoint set_first_free (b : nat) (n : nat) (bits : N) : option N :=
  match n with
  | O => None
  | S n => if N.testbit bits (N.of_nat b) then set_first_free (S b) n bits
           else Some (N.setbit bits (N.of_nat b))
  end.

(** Result of [resolve_decl_specs_to_type]. /repo/src/genspecresolver.cpp:20-130. *)
Inductive spec_res : Type := SpecOk (t : tree) | SpecDie | SpecUB.

(** The value of one case label, /repo/src/genspecresolver.cpp:103-115. *)
Fixpoint case_label (seen : list spec) (l : list spec) : N :=
  match l with
  | [] => 0
  | s :: l =>
      let k := List.length (filter (spec_eqb s) seen) in
      match bit_alloc no_bits_per_specifier 0 s with
      | Some (b, _) => N.lor (N.shiftl 1 (N.of_nat (b + k))) (case_label (s :: seen) l)
      | None => case_label (s :: seen) l
      end
  end.

(** The final [switch(spec_bitstring)], /repo/src/genspecresolver.cpp:96-124. *)
Fixpoint type_return (maps : list (tree * list (list spec))) (bits : N) : spec_res :=
  match maps with
  | [] => SpecDie
  | (t, ls) :: maps =>
      if existsb (fun l => N.eqb (case_label [] l) bits) ls then SpecOk t
      else type_return maps bits
  end.

(** The generated loop and switch, /repo/src/genspecresolver.cpp:15-124.  A NULL
    chain leads to [eval_die(NULL)], a NULL dereference. *)
Fixpoint resolve_loop (l : list tree) (bits : N) : spec_res :=
  match l with
  | [] => type_return spec_maps bits
  | i :: l =>
      match i with
      | T_SPEC T_EXTERN | T_SPEC T_TYPEDEF | T_SPEC T_STATIC => resolve_loop l bits
      | T_SPEC s =>
          match bit_alloc no_bits_per_specifier 0 s with
          | Some (b, n) =>
              match set_first_free b n bits with
              | Some bits' => resolve_loop l bits'
              | None => SpecDie
              end
          | None => SpecDie
          end
      | T_IDENTIFIER _ | T_DECL_COMPOUND _ _ _ _ | T_ENUMERATOR _ _ => SpecOk i
      | NULL => SpecUB
      | _ => SpecDie
      end
  end.

(** The generated function, called at /repo/src/evaluate.c:653, 1111, 2446 and
    function-call.c:180. *)
Definition resolve_decl_specs_to_type (decl_specs : tree) : spec_res :=
  match decl_specs with
  | NULL => SpecUB
  | _ => resolve_loop (chain_elems decl_specs) 0
  end.
