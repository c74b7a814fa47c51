(** Property theorems about variables: C02 - C06, C15 (redeclaration), C51, C52. *)
From Coq Require Import ZArith List String Bool Lia.
From Verif Require Import CInt Tree State Eval StepsFacts SpecRun SpecExpr SpecNames SpecTypes SpecVars RunFacts NameFacts
  VarFacts TestEnv TestRun.
Import ListNotations.
Local Open Scope string_scope.
Local Open Scope Z_scope.

(** C02.  An assignment to an integer variable: the value of the right-hand side is stored
    modulo the width of the variable, nothing else changes, and the assignment has the
    value of the right-hand side. *)
Theorem C02_assignment : forall E s l lhs rhs c a arr n s1 v s2,
  plain s l lhs -> runs E s lhs (Ok (T_LIVE_VAR (D_T c) a arr n) s1) -> integer_type c = true ->
  runs E s1 rhs (Ok (T_INTEGER v) s2) -> storage E s2 a (width c) -> - 2 ^ 63 <= v < 2 ^ 63 ->
  exists s3, runs E s (T_ASSIGN l lhs rhs) (Ok (T_INTEGER v) s3) /\ only_writes E s2 a (width c) s3 /\
    wraps c v (value_at s3 c a).
Proof.
  intros. destruct (assign_int E s l lhs rhs c a arr n s1 v s2) as (s3 & w & H5 & H6 & H7 & H8); auto.
  rewrite (clipped_small v w) in H8 by auto. exists s3. auto.
Qed.
Print Assumptions C02_assignment.

(** For a variable whose storage belongs to a scope, the right-hand side may be any
    expression that does not execute a break. *)
Theorem C02_variable : forall E s l x e c a arr n v s1,
  reachable E s -> plain s l (T_IDENTIFIER x) -> means s x (T_LIVE_VAR (D_T c) a arr n) -> integer_type c = true ->
  owned s a (width c) -> runs E s e (Ok (T_INTEGER v) s1) -> breaks s1 = breaks s -> - 2 ^ 63 <= v < 2 ^ 63 ->
  exists s2, runs E s (T_ASSIGN l (T_IDENTIFIER x) e) (Ok (T_INTEGER v) s2) /\ only_writes E s1 a (width c) s2 /\
    wraps c v (value_at s2 c a).
Proof.
  intros. destruct (assign_owned E s l x e c a arr n v s1) as (s3 & w & H7 & H8 & H9 & H10); auto.
  rewrite (clipped_small v w) in H10 by auto. exists s3. auto.
Qed.
Print Assumptions C02_variable.

(** C02 and C03 for the integer expressions of C01: whatever the value [v], what is stored is
    [v] clipped to 63 bits and sign, then reduced to the type of the variable; and the
    variable has that value afterwards. *)
Theorem C03_assign_expression : forall E rho e s l x c a arr n,
  plain s l (T_IDENTIFIER x) -> means s x (T_LIVE_VAR (D_T c) a arr n) ->
  integer_type c = true -> storage E s a (width c) -> computed e ->
  (forall y, mentions e y -> number E s (lookup s y) (rho y)) ->
  match denote rho e with
  | Some v => exists s' w, runs E s (T_ASSIGN l (T_IDENTIFIER x) (syntax e)) (Ok (T_INTEGER v) s') /\
      only_writes E s a (width c) s' /\ clipped v w /\ wraps c w (value_at s' c a) /\
      means s' x (T_LIVE_VAR (D_T c) a arr n) /\ number E s' (T_LIVE_VAR (D_T c) a arr n) (as_long (value_at s' c a))
  | None => exists s', runs E s (T_ASSIGN l (T_IDENTIFIER x) (syntax e)) (Abort s') /\ only_gc E s s'
  end.
Proof. exact assign_expr. Qed.
Print Assumptions C03_assign_expression.

(** C03.  Any right-hand side. *)
Theorem C03_out_of_range : forall E s l lhs rhs c a arr n s1 v s2,
  plain s l lhs -> runs E s lhs (Ok (T_LIVE_VAR (D_T c) a arr n) s1) -> integer_type c = true ->
  runs E s1 rhs (Ok (T_INTEGER v) s2) -> storage E s2 a (width c) ->
  exists s3 w, runs E s (T_ASSIGN l lhs rhs) (Ok (T_INTEGER v) s3) /\ only_writes E s2 a (width c) s3 /\
    clipped v w /\ wraps c w (value_at s3 c a).
Proof. exact assign_int. Qed.
Print Assumptions C03_out_of_range.

(** C leaves all 64 bits of such a value in an unsigned 64-bit variable; here the top bit is
    lost. *)
Theorem C03_top_bit_lost : forall E s l lhs rhs a arr n s1 v s2,
  plain s l lhs -> runs E s lhs (Ok (T_LIVE_VAR (D_T D_T_ULONG) a arr n) s1) ->
  runs E s1 rhs (Ok (T_INTEGER v) s2) -> storage E s2 a 8 -> 2 ^ 63 <= v < 2 ^ 64 ->
  exists s3, runs E s (T_ASSIGN l lhs rhs) (Ok (T_INTEGER v) s3) /\
    value_at s3 D_T_ULONG a = v - 2 ^ 63 /\ ~ wraps D_T_ULONG v (value_at s3 D_T_ULONG a).
Proof.
  intros E s l lhs rhs a arr n s1 v s2 H H0 H1 H2 H3.
  destruct (assign_int E s l lhs rhs D_T_ULONG a arr n s1 v s2) as (s3 & w & H5 & _ & H7 & H8); auto.
  exists s3. split; [exact H5|]. destruct H7 as ([q Hq] & Hp & _). destruct H8 as [[p Hp'] Hr].
  specialize (Hp ltac:(lia)). change (8 * width D_T_ULONG) with 64 in *. cbn [signed] in Hr.
  assert (Hv : value_at s3 D_T_ULONG a = v - 2 ^ 63) by lia. split; [exact Hv|].
  rewrite Hv. intros [[k Hk] _]. change (8 * width D_T_ULONG) with 64 in Hk. lia.
Qed.
Print Assumptions C03_top_bit_lost.

(** [unsigned long x; short y;] and a state before [y = 70000] and [x = 2^64 - 1]. *)
Definition two_sizes : state := after
  [T_DECL 1 (specs [T_UNSIGNED_TS; T_LONG_TS]) (CHAIN_HEAD [id "x"]); T_DECL 2 (specs [T_SHORT_TS]) (CHAIN_HEAD [id "y"])].
Example C02_nontrivial : exists a b,
  reachable env0 two_sizes /\ plain two_sizes 7 (id "y") /\
  means two_sizes "y" (T_LIVE_VAR (D_T D_T_SHORT) a false 0) /\ storage env0 two_sizes a 2 /\
  means two_sizes "x" (T_LIVE_VAR (D_T D_T_ULONG) b false 0) /\ storage env0 two_sizes b 8 /\
  (let s' := final_state (outcome two_sizes (T_ASSIGN 7 (id "y") (num 70000))) in
   value (outcome two_sizes (T_ASSIGN 7 (id "y") (num 70000))) = Some (num 70000) /\
   value_at s' D_T_SHORT a = 4464) /\
  value_at (final_state (outcome two_sizes (T_ASSIGN 8 (id "x") (num (2 ^ 64 - 1))))) D_T_ULONG b = 2 ^ 63 - 1.
Proof.
  exists 4144, 4112. split; [apply reachable_after|]. split; [left; vm_compute; reflexivity|].
  split; [apply means_lookup; [discriminate|vm_compute; reflexivity]|].
  split; [apply storageb_ok; vm_compute; reflexivity|].
  split; [apply means_lookup; [discriminate|vm_compute; reflexivity]|].
  split; [apply storageb_ok; vm_compute; reflexivity|]. split; [split|]; vm_compute; reflexivity.
Qed.

(** C04.  [++x] ([inc]) and [--x] on an integer variable: the result is the new value. *)
Theorem C04_prefix : forall E e s c a arr n s1 (d : Z) (inc : bool), d = (if inc then 1 else -1) ->
  runs E s e (Ok (T_LIVE_VAR (D_T c) a arr n) s1) -> integer_type c = true -> storage E s1 a (width c) ->
  exists s2, runs E s ((if inc then T_INC else T_DEC) e) (Ok (T_INTEGER (as_long (value_at s2 c a))) s2) /\
    only_writes E s1 a (width c) s2 /\ wraps c (value_at s1 c a + d) (value_at s2 c a).
Proof. exact step_pre. Qed.
Print Assumptions C04_prefix.

(** [x++] and [x--]: the result is the value before. *)
Theorem C04_postfix : forall E e s c a arr n s1 (d : Z) (inc : bool), d = (if inc then 1 else -1) ->
  runs E s e (Ok (T_LIVE_VAR (D_T c) a arr n) s1) -> integer_type c = true -> storage E s1 a (width c) ->
  exists s2, runs E s ((if inc then T_P_INC else T_P_DEC) e) (Ok (T_INTEGER (as_long (value_at s1 c a))) s2) /\
    only_writes E s1 a (width c) s2 /\ wraps c (value_at s1 c a + d) (value_at s2 c a).
Proof. exact step_post. Qed.
Print Assumptions C04_postfix.

(** On a pointer the address changes by one, whatever it points to. *)
Theorem C04_pointer : forall E e s t a arr n s1 (inc pre : bool),
  runs E s e (Ok (T_LIVE_VAR (D_T_PTR t) a arr n) s1) -> storage E s1 a 8 ->
  exists s2, runs E s ((if pre then if inc then T_INC else T_DEC else if inc then T_P_INC else T_P_DEC) e)
      (Ok (T_INTEGER (as_long (unsigned_at (mem (if pre then s2 else s1)) a 8))) s2) /\
    only_writes E s1 a 8 s2 /\
    unsigned_at (mem s2) a 8 = (unsigned_at (mem s1) a 8 + (if inc then 1 else -1)) mod 2 ^ 64.
Proof. exact step_ptr. Qed.
Print Assumptions C04_pointer.

(** [char x = 127; int *p; p = 1000;] *)
Definition extremes : state := after
  [T_DECL 1 (specs [T_CHAR_TS]) (CHAIN_HEAD [T_ASSIGN 1 (id "x") (num 127)]);
   T_DECL 2 int_specs (CHAIN_HEAD [T_POINTER (id "p")]); T_ASSIGN 3 (id "p") (num 1000)].
Example C04_nontrivial : exists a b,
  runs env0 extremes (id "x") (Ok (T_LIVE_VAR (D_T D_T_CHAR) a false 0) extremes) /\ storage env0 extremes a 1 /\
  value_at extremes D_T_CHAR a = 127 /\
  runs env0 extremes (id "p") (Ok (T_LIVE_VAR (D_T_PTR (D_T D_T_INT)) b false 0) extremes) /\ storage env0 extremes b 8 /\
  value (outcome extremes (T_INC (id "x"))) = Some (num (-128)) /\
  value (outcome extremes (T_P_INC (id "x"))) = Some (num 127) /\
  value (outcome extremes (T_INC (id "p"))) = Some (num 1001).
Proof.
  exists 4112, 4144.
  split; [apply (proj2 (innermost _ _ _ _ _)); split; [apply means_lookup; [discriminate|vm_compute; reflexivity]|reflexivity]|].
  split; [apply storageb_ok; vm_compute; reflexivity|]. split; [vm_compute; reflexivity|].
  split; [apply (proj2 (innermost _ _ _ _ _)); split; [apply means_lookup; [discriminate|vm_compute; reflexivity]|reflexivity]|].
  split; [apply storageb_ok; vm_compute; reflexivity|]. split; [|split]; vm_compute; reflexivity.
Qed.

(** C05.  [x op= e] with any right operand [e], as the parser builds it: the variable is read
    after [e] has been evaluated, combined with the value of [e] as in C01 and stored as in C03. *)
Theorem C05_compound_assignment : forall E s l op x e c a arr n r s1 y,
  plain s l (T_IDENTIFIER x) -> means s x (T_LIVE_VAR (D_T c) a arr n) -> integer_type c = true ->
  runs E s e (Ok r s1) -> number E s1 r y -> storage E s1 a (width c) ->
  match zop op (as_long (value_at s1 c a)) y with
  | Some z => exists s2 w, runs E s (T_ASSIGN l (T_IDENTIFIER x) (T_BINOP op (T_IDENTIFIER x) e)) (Ok (T_INTEGER z) s2) /\
      only_writes E s1 a (width c) s2 /\ clipped z w /\ wraps c w (value_at s2 c a)
  | None => exists s2, runs E s (T_ASSIGN l (T_IDENTIFIER x) (T_BINOP op (T_IDENTIFIER x) e)) (Abort s2) /\ only_gc E s1 s2
  end.
Proof. exact compound. Qed.
Print Assumptions C05_compound_assignment.

(** With a right operand of the integer fragment: what [x op e] denotes. *)
Theorem C05_expression : forall E rho op e s l x c a arr n,
  plain s l (T_IDENTIFIER x) -> means s x (T_LIVE_VAR (D_T c) a arr n) ->
  integer_type c = true -> storage E s a (width c) ->
  (forall y, mentions e y -> number E s (lookup s y) (rho y)) ->
  match denote rho e with
  | Some y =>
      match zop op (as_long (value_at s c a)) y with
      | Some v => exists s' w, runs E s (T_ASSIGN l (T_IDENTIFIER x) (T_BINOP op (T_IDENTIFIER x) (syntax e))) (Ok (T_INTEGER v) s') /\
          only_writes E s a (width c) s' /\ clipped v w /\ wraps c w (value_at s' c a) /\ means s' x (T_LIVE_VAR (D_T c) a arr n)
      | None => exists s', runs E s (T_ASSIGN l (T_IDENTIFIER x) (T_BINOP op (T_IDENTIFIER x) (syntax e))) (Abort s') /\ only_gc E s s'
      end
  | None => exists s', runs E s (T_ASSIGN l (T_IDENTIFIER x) (T_BINOP op (T_IDENTIFIER x) (syntax e))) (Abort s') /\ only_gc E s s'
  end.
Proof. exact compound_expr. Qed.
Print Assumptions C05_expression.

Example C05_nontrivial : exists a,
  plain extremes 9 (id "x") /\ means extremes "x" (T_LIVE_VAR (D_T D_T_CHAR) a false 0) /\ storage env0 extremes a 1 /\
  number env0 extremes (lookup extremes "x") 127 /\
  value (outcome extremes (T_ASSIGN 9 (id "x") (T_BINOP LSHIFT (id "x") (num 1)))) = Some (num 254) /\
  value_at (final_state (outcome extremes (T_ASSIGN 9 (id "x") (T_BINOP LSHIFT (id "x") (num 1))))) D_T_CHAR a = -2.
Proof.
  exists 4112. split; [left; vm_compute; reflexivity|].
  split; [apply means_lookup; [discriminate|vm_compute; reflexivity]|].
  split; [apply storageb_ok; vm_compute; reflexivity|]. split; [apply numberb_ok; vm_compute; reflexivity|].
  split; vm_compute; reflexivity.
Qed.

(** C06.  The cast [(specs * ... ) e] of a variable: a new object, whose value is the one of the
    source reduced to the new type; all storage in use keeps its contents. *)
Theorem C06_cast_variable : forall E s e specs t n t' b arr k z s1,
  reachable E s -> names_type specs t -> scalar t -> int_or_pointer (pointer_to n t) ->
  runs E s e (Ok (T_LIVE_VAR t' b arr k) s1) -> storage E s1 b (scalar_width t') -> scalar_at s1 t' b z ->
  let cast := T_CAST (T_TYPE_SPECIFIER (CHAIN_HEAD (map T_SPEC specs)) (stars n NULL)) e in
  out_of_memory E s cast 16 \/
  exists a s3, runs E s cast (Ok (T_LIVE_VAR (pointer_to n t) a false 0) s3) /\ gains E s1 [] a s3 /\
    (forall x, x < a \/ a + scalar_width (pointer_to n t) <= x -> mem s3 x = mem s1 x) /\
    exists w, scalar_at s3 (pointer_to n t) a w /\ fits (pointer_to n t) z w.
Proof. exact cast_source_variable. Qed.
Print Assumptions C06_cast_variable.

(** Of a computed integer. *)
Theorem C06_cast_number : forall E s e specs t n v s1,
  reachable E s -> names_type specs t -> scalar t -> int_or_pointer (pointer_to n t) ->
  runs E s e (Ok (T_INTEGER v) s1) ->
  let cast := T_CAST (T_TYPE_SPECIFIER (CHAIN_HEAD (map T_SPEC specs)) (stars n NULL)) e in
  out_of_memory E s cast 16 \/
  exists a s3, runs E s cast (Ok (T_LIVE_VAR (pointer_to n t) a false 0) s3) /\ gains E s1 [] a s3 /\
    (forall x, x < a \/ a + scalar_width (pointer_to n t) <= x -> mem s3 x = mem s1 x) /\
    exists u w, clipped v u /\ scalar_at s3 (pointer_to n t) a w /\ fits (pointer_to n t) u w.
Proof. exact cast_source_number. Qed.
Print Assumptions C06_cast_number.

(** The new object overlaps no storage that was in use, so that storage keeps its contents. *)
Theorem C06_storage_kept : forall E s1 a s3 n x, gains E s1 [] a s3 -> 0 <= n <= 16 ->
  (forall y, y < a \/ a + n <= y -> mem s3 y = mem s1 y) -> storage E s1 x 1 -> mem s3 x = mem s1 x.
Proof.
  intros E s1 a s3 n x (_ & (_ & _ & _ & H) & _) Hn Hm Hx. apply Hm. destruct (H x 1 ltac:(lia) Hx) as [_ Hd]. lia.
Qed.
Print Assumptions C06_storage_kept.

Definition to_short : tree := T_CAST (T_TYPE_SPECIFIER (specs [T_SHORT_TS; T_UNSIGNED_TS]) NULL) (id "x").
Definition minus : state := after [init_int 1 "x" (num (-70000))].
Example C06_nontrivial : exists b s',
  reachable env0 minus /\ names_type [T_SHORT_TS; T_UNSIGNED_TS] (D_T D_T_USHORT) /\
  runs env0 minus (id "x") (Ok (T_LIVE_VAR (D_T D_T_INT) b false 0) minus) /\ storage env0 minus b 4 /\
  scalar_at minus (D_T D_T_INT) b (-70000) /\
  runs env0 minus to_short (Ok (T_LIVE_VAR (D_T D_T_USHORT) 4144 false 0) s') /\
  value_at s' D_T_USHORT 4144 = 61072 /\ value_at s' D_T_INT b = -70000.
Proof.
  exists 4112, (final_state (outcome minus to_short)). split; [apply reachable_after|].
  split; [exists [T_UNSIGNED_TS; T_SHORT_TS]; split; [constructor|apply Permutation.perm_swap]|].
  split; [apply (proj2 (innermost _ _ _ _ _)); split; [apply means_lookup; [discriminate|vm_compute; reflexivity]|reflexivity]|].
  split; [apply storageb_ok; vm_compute; reflexivity|]. split; [split; vm_compute; reflexivity|].
  split; [apply outcome_ok; vm_compute; reflexivity|]. split; vm_compute; reflexivity.
Qed.

(** C51.  A declaration of variables of a number or pointer type, [specs x, *y, ...;], in a scope
    that declares none of them: each gets new storage, in order, and nothing else changes.
    (Unless malloc fails.) *)
Theorem C51_declaration : forall E l specs t ds s c cs,
  zfind l (statics s) = None -> names_type specs t -> scalar t -> no_storage_class specs ->
  stack s = c :: cs -> NoDup (map snd ds) -> (forall x, In x (map snd ds) -> ~ declares c x) ->
  let d := T_DECL l (CHAIN_HEAD (map T_SPEC specs)) (CHAIN_HEAD (map (fun d => stars (fst d) (T_IDENTIFIER (snd d))) ds)) in
  out_of_memory E s d 16 \/
  exists s', runs E s d (Ok (last (map (fun d => T_IDENTIFIER (snd d)) ds) NULL) s') /\ declared_all E t s ds s'.
Proof. exact declaration. Qed.
Print Assumptions C51_declaration.

(** A declared name means the new variable. *)
Theorem C51_names_it : forall E s x t a s1 c cs,
  stack s = c :: cs -> ~ In x (map fst (c_idmap c)) -> declared E s x t a s1 ->
  means s1 x (T_LIVE_VAR t a false 0) /\ forall y, y <> x -> lookup s1 y = lookup s y.
Proof.
  intros E s x t a s1 c cs Hs Hx Hd. split; [eapply declared_means; eauto|].
  intros y Hy. eapply declared_lookup; eauto.
Qed.
Print Assumptions C51_names_it.

(** With an initialiser: the variable is declared first, so that it is in scope in its own
    initialiser; then the initialiser is assigned. *)
Theorem C51_initialiser : forall E l specs t al n x e s c cs,
  zfind l (statics s) = None -> names_type specs t -> scalar t -> no_storage_class specs ->
  stack s = c :: cs -> ~ declares c x -> plain s al (stars n (T_IDENTIFIER x)) ->
  let d := T_DECL l (CHAIN_HEAD (map T_SPEC specs)) (CHAIN_HEAD [T_ASSIGN al (stars n (T_IDENTIFIER x)) e]) in
  out_of_memory E s d 16 \/
  exists a s1, declared E s x (pointer_to n t) a s1 /\
    let s2 := set_ov_asn (fun o => (al, T_IDENTIFIER x) :: o) s1 in
    (forall v s3, runs E s2 (T_ASSIGN al (T_IDENTIFIER x) e) (Ok v s3) -> runs E s d (Ok (T_IDENTIFIER x) s3)) /\
    (forall r, runs E s2 (T_ASSIGN al (T_IDENTIFIER x) e) r -> stops r -> runs E s d r).
Proof. exact initialiser. Qed.
Print Assumptions C51_initialiser.

(** For an integer variable and an integer expression. *)
Theorem C51_initial_value : forall E rho e l specs ct al x s c cs,
  zfind l (statics s) = None -> names_type specs (D_T ct) ->
  integer_type ct = true -> no_storage_class specs -> stack s = c :: cs -> ~ In x (map fst (c_idmap c)) ->
  plain s al (T_IDENTIFIER x) -> computed e -> ~ mentions e x ->
  (forall y, mentions e y -> number E s (lookup s y) (rho y)) ->
  let d := T_DECL l (CHAIN_HEAD (map T_SPEC specs)) (CHAIN_HEAD [T_ASSIGN al (T_IDENTIFIER x) (syntax e)]) in
  out_of_memory E s d 16 \/
  exists a s1, declared E s x (D_T ct) a s1 /\
    let s2 := set_ov_asn (fun o => (al, T_IDENTIFIER x) :: o) s1 in
    match denote rho e with
    | Some v => exists s' w, runs E s d (Ok (T_IDENTIFIER x) s') /\ only_writes E s2 a (width ct) s' /\
        clipped v w /\ wraps ct w (value_at s' ct a) /\ means s' x (T_LIVE_VAR (D_T ct) a false 0)
    | None => exists s', runs E s d (Abort s') /\ only_gc E s2 s'
    end.
Proof. exact initialised_expr. Qed.
Print Assumptions C51_initial_value.

(** [short y = x + 70000, ...] in a state with [int x = -70000]. *)
Example C51_nontrivial : exists c cs,
  zfind 5 (statics minus) = None /\ names_type [T_SHORT_TS] (D_T D_T_SHORT) /\ stack minus = c :: cs /\
  ~ In "y" (map fst (c_idmap c)) /\ plain minus 6 (id "y") /\
  number env0 minus (lookup minus "x") (-70000) /\
  (let d := T_DECL 5 (specs [T_SHORT_TS]) (CHAIN_HEAD [T_ASSIGN 6 (id "y") (T_BINOP ADD (id "x") (num 1))]) in
   value (outcome minus d) = Some (id "y") /\
   lookup (final_state (outcome minus d)) "y" = T_LIVE_VAR (D_T D_T_SHORT) 4144 false 0 /\
   value_at (final_state (outcome minus d)) D_T_SHORT 4144 = -4463).
Proof.
  assert (Hl : List.length (stack minus) = 2%nat) by (vm_compute; reflexivity).
  assert (Hn : match stack minus with c :: _ => existsb (String.eqb "y") (map fst (c_idmap c)) | _ => true end = false)
    by (vm_compute; reflexivity).
  destruct (stack minus) as [|c cs] eqn:Hs; [discriminate Hl|]. exists c, cs.
  split; [vm_compute; reflexivity|]. split; [exists [T_SHORT_TS]; split; constructor; constructor|]. split; [reflexivity|].
  split; [intros Hy; rewrite (proj2 (existsb_exists _ _) (ex_intro _ _ (conj Hy (String.eqb_refl "y")))) in Hn; discriminate Hn|].
  split; [left; vm_compute; reflexivity|]. split; [apply numberb_ok; vm_compute; reflexivity|].
  split; [|split]; vm_compute; reflexivity.
Qed.

(** It is not true that a declaration with initialiser declares a variable of the same type each
    time it is executed: [int *p = 0;] declares an int the second time. *)
Theorem C51_same_type_each_time_refuted : exists E s l al e a s',
  reachable E s /\ (forall c cs, stack s = c :: cs -> ~ declares c "p") /\
  runs E s (T_DECL l int_specs (CHAIN_HEAD [T_ASSIGN al (stars 1 (T_IDENTIFIER "p")) e])) (Ok (T_IDENTIFIER "p") s') /\
  means s' "p" (T_LIVE_VAR (D_T D_T_INT) a false 0).
Proof.
  set (d := T_DECL 3 int_specs (CHAIN_HEAD [T_ASSIGN 4 (T_POINTER (id "p")) (num 0)])).
  set (s := after [T_IF (num 1) (CHAIN_HEAD [d]) NULL]).
  assert (Hb : lookup (final_state (outcome s d)) "p" = T_LIVE_VAR (D_T D_T_INT) 4112 false 0)
    by (vm_compute; reflexivity).
  assert (Hn : match stack s with c :: _ => is_NULL (resolve_id "p" (c_idmap c)) | _ => true end = true)
    by (vm_compute; reflexivity).
  exists env0, s, 3, 4, (num 0), 4112, (final_state (outcome s d)). split; [apply reachable_after|].
  split; [intros c cs Hs; rewrite Hs in Hn; intros Hd; apply declares_resolve in Hd; apply Hd, is_NULL_spec, Hn|].
  split; [apply outcome_ok; vm_compute; reflexivity|]. apply means_lookup; [discriminate|exact Hb].
Qed.
Print Assumptions C51_same_type_each_time_refuted.

(** C15.  Declaring a variable again in the same scope stops the program with an error. *)
Theorem C15_redeclaration_dies : forall E l specs t n x s c cs,
  zfind l (statics s) = None -> names_type specs t -> scalar t -> no_storage_class specs ->
  stack s = c :: cs -> declares c x ->
  let d := T_DECL l (CHAIN_HEAD (map T_SPEC specs)) (CHAIN_HEAD [stars n (T_IDENTIFIER x)]) in
  out_of_memory E s d 16 \/ exists s', runs E s d (Die s').
Proof. exact redeclaration. Qed.
Print Assumptions C15_redeclaration_dies.

Theorem C15_redeclaration_with_initialiser_dies : forall E l specs t al n x e s c cs,
  zfind l (statics s) = None -> names_type specs t -> scalar t -> no_storage_class specs ->
  stack s = c :: cs -> declares c x -> plain s al (stars n (T_IDENTIFIER x)) ->
  let d := T_DECL l (CHAIN_HEAD (map T_SPEC specs)) (CHAIN_HEAD [T_ASSIGN al (stars n (T_IDENTIFIER x)) e]) in
  out_of_memory E s d 16 \/ exists s', runs E s d (Die s').
Proof. exact redeclaration_init. Qed.
Print Assumptions C15_redeclaration_with_initialiser_dies.

Example C15_redeclaration_nontrivial : exists c cs,
  zfind 5 (statics minus) = None /\ stack minus = c :: cs /\ declares c "x" /\
  kind_of (outcome minus (T_DECL 5 int_specs (CHAIN_HEAD [T_POINTER (id "x")]))) = KDie.
Proof.
  assert (Hn : match stack minus with c :: _ => is_NULL (resolve_id "x" (c_idmap c)) | _ => true end = false)
    by (vm_compute; reflexivity).
  destruct (stack minus) as [|c cs] eqn:Hs; [discriminate Hn|]. exists c, cs.
  split; [vm_compute; reflexivity|]. split; [reflexivity|].
  split; [apply declares_resolve; intros H; rewrite H in Hn; discriminate Hn|vm_compute; reflexivity].
Qed.

(** C52.  Assigning one variable to another reads eight bytes of the right one, whatever its type,
    and keeps as many as the left one has. *)
Theorem C52_copies_eight_bytes : forall E s l lhs rhs c a arr n s1 t b arr' n' s2,
  plain s l lhs -> runs E s lhs (Ok (T_LIVE_VAR (D_T c) a arr n) s1) -> integer_type c = true ->
  runs E s1 rhs (Ok (T_LIVE_VAR t b arr' n') s2) -> storage E s2 a (width c) -> storage E s2 b 8 ->
  exists s3, runs E s (T_ASSIGN l lhs rhs) (Ok (T_LIVE_VAR t b arr' n') s3) /\ only_writes E s2 a (width c) s3 /\
    wraps c (unsigned_at (mem s2) b 8) (value_at s3 c a).
Proof. exact assign_var. Qed.
Print Assumptions C52_copies_eight_bytes.

(** So it is the C assignment when the right variable is at least as wide as the left one. *)
Theorem C52_narrowing : forall E s l lhs rhs c a arr n s1 c' b arr' n' s2,
  plain s l lhs -> runs E s lhs (Ok (T_LIVE_VAR (D_T c) a arr n) s1) -> integer_type c = true ->
  runs E s1 rhs (Ok (T_LIVE_VAR (D_T c') b arr' n') s2) -> integer_type c' = true -> width c <= width c' ->
  storage E s2 a (width c) -> storage E s2 b 8 ->
  exists s3, runs E s (T_ASSIGN l lhs rhs) (Ok (T_LIVE_VAR (D_T c') b arr' n') s3) /\ only_writes E s2 a (width c) s3 /\
    wraps c (value_at s2 c' b) (value_at s3 c a).
Proof.
  intros E s l lhs rhs c a arr n s1 c' b arr' n' s2 Hp H1 Hc H2 Hc' Hw Ha Hb.
  destruct (assign_var E s l lhs rhs c a arr n s1 (D_T c') b arr' n' s2) as (s3 & R & W & V); auto.
  exists s3. split; [exact R|]. split; [exact W|]. apply narrowing; auto.
Qed.
Print Assumptions C52_narrowing.

(** [int y = -1; long x; x = y;]: x does not become -1. *)
Definition wider : state := after [init_int 1 "y" (num (-1)); T_DECL 2 (specs [T_LONG_TS]) (CHAIN_HEAD [id "x"])].
Theorem C52_widening_refuted : exists E s l x y c c' a b s',
  reachable E s /\ plain s l (T_IDENTIFIER x) /\ means s x (T_LIVE_VAR (D_T c) a false 0) /\ integer_type c = true /\
  means s y (T_LIVE_VAR (D_T c') b false 0) /\ integer_type c' = true /\ storage E s a (width c) /\ storage E s b 8 /\
  runs E s (T_ASSIGN l (T_IDENTIFIER x) (T_IDENTIFIER y)) (Ok (T_LIVE_VAR (D_T c') b false 0) s') /\
  ~ wraps c (value_at s c' b) (value_at s' c a).
Proof.
  exists env0, wider, 7, "x", "y", D_T_LONG, D_T_INT, 4144, 4112, (final_state (outcome wider (T_ASSIGN 7 (id "x") (id "y")))).
  split; [apply reachable_after|]. split; [left; vm_compute; reflexivity|].
  split; [apply means_lookup; [discriminate|vm_compute; reflexivity]|]. split; [reflexivity|].
  split; [apply means_lookup; [discriminate|vm_compute; reflexivity]|]. split; [reflexivity|].
  split; [apply storageb_ok; vm_compute; reflexivity|]. split; [apply storageb_ok; vm_compute; reflexivity|].
  split; [apply outcome_ok; vm_compute; reflexivity|].
  assert (H1 : value_at wider D_T_INT 4112 = -1) by (vm_compute; reflexivity).
  assert (H2 : value_at (final_state (outcome wider (T_ASSIGN 7 (id "x") (id "y")))) D_T_LONG 4144 = -6148914689804861441)
    by (vm_compute; reflexivity).
  rewrite H1, H2. intros [[q Hq] _]. change (8 * width D_T_LONG) with 64 in Hq. lia.
Qed.
Print Assumptions C52_widening_refuted.

Example C52_nontrivial : exists a b,
  plain wider 7 (id "y") /\ means wider "y" (T_LIVE_VAR (D_T D_T_INT) a false 0) /\
  means wider "x" (T_LIVE_VAR (D_T D_T_LONG) b false 0) /\ storage env0 wider a 4 /\ storage env0 wider b 8 /\
  width D_T_INT <= width D_T_LONG.
Proof.
  exists 4112, 4144. split; [left; vm_compute; reflexivity|].
  split; [apply means_lookup; [discriminate|vm_compute; reflexivity]|].
  split; [apply means_lookup; [discriminate|vm_compute; reflexivity]|].
  split; [apply storageb_ok; vm_compute; reflexivity|]. split; [apply storageb_ok; vm_compute; reflexivity|]. cbn. lia.
Qed.
