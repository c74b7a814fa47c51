(** Property theorems about pointers, arrays, enumerations and typedefs: C21, C22, C26, C27. *)
From Coq Require Import ZArith List String Bool Lia.
From Verif Require Import CInt Tree State Eval StepsFacts SpecRun SpecExpr SpecNames SpecTypes SpecVars SpecCalls SpecStatic
  SpecPtr SpecEnum RunFacts NameFacts VarFacts StaticFacts PtrFacts EnumFacts TestEnv TestRun.
Import ListNotations.
Local Open Scope string_scope.
Local Open Scope Z_scope.
Local Open Scope list_scope.

(** ** C21: address and dereference *)

(** The value of [&e] is a new pointer variable that holds the address of the variable. *)
Theorem C21_address : forall E s e t a n s1,
  reachable E s -> runs E s e (Ok (T_LIVE_VAR t a false n) s1) ->
  out_of_memory E s (T_ADDR e) 16 \/
  exists p s2, runs E s (T_ADDR e) (Ok (T_LIVE_VAR (D_T_PTR t) p false 0) s2) /\ only_new E s1 [] s2 /\
    new_object E s1 p 16 s2 /\ unsigned_at (mem s2) p 8 = a mod 2 ^ 64.
Proof. intros E s e t a n s1 Hr H. apply (address E s e t a n s1 H). eapply reachable_nonempty, reachable_runs; eauto. Qed.
Print Assumptions C21_address.

(** [*&e] is the variable itself: same type, same address, same number. *)
Theorem C21_star_address : forall E s e t a n s1,
  reachable E s -> runs E s e (Ok (T_LIVE_VAR t a false n) s1) -> object_type t -> 0 <= a < 2 ^ 64 ->
  out_of_memory E s (T_DEREF (T_ADDR e)) 16 \/
  exists s2, runs E s (T_DEREF (T_ADDR e)) (Ok (T_LIVE_VAR t a false 0) s2) /\ only_new E s1 [] s2 /\
    forall z, number E s1 (T_LIVE_VAR t a false n) z -> number E s2 (T_LIVE_VAR t a false 0) z.
Proof.
  intros E s e t a n s1 Hr H Ht Ha. 
  destruct (star_address E s e t a n s1 H) as [H'|(s2 & H' & N)]; auto; [eapply reachable_nonempty, reachable_runs; eauto|].
  right. exists s2. split; [exact H'|]. split; [exact N|]. intros z Hz. eapply kept_number; [apply N|].
  inversion Hz; subst; constructor; assumption.
Qed.
Print Assumptions C21_star_address.

(** [*&x = e] stores into [x] what [x = e] would (C03_assign_expression); everything else that is
    in use keeps its contents. *)
Theorem C21_assign_through : forall E s x rho e v c a n l, let lhs := T_DEREF (T_ADDR (T_IDENTIFIER x)) in
  reachable E s -> plain s l lhs -> means s x (T_LIVE_VAR (D_T c) a false n) -> integer_type c = true ->
  storage E s a (width c) -> 0 <= a < 2 ^ 64 -> reads E s rho e -> computed e -> denote rho e = Some v ->
  out_of_memory E s (T_ASSIGN l lhs (syntax e)) 16 \/
  exists s' w, runs E s (T_ASSIGN l lhs (syntax e)) (Ok (T_INTEGER v) s') /\ clipped v w /\ wraps c w (value_at s' c a) /\
    (forall b, storage E s b 1 -> b < a \/ a + width c <= b -> mem s' b = mem s b) /\
    (forall b m, storage E s b m -> storage E s' b m) /\ (forall y, lookup s' y = lookup s y).
Proof. intros E s x rho e v c a n l lhs Hr. apply star_address_store. apply (reachable_nonempty E s Hr). Qed.
Print Assumptions C21_assign_through.

(** Following a pointer: [*e] is the object at the address that the pointer holds. *)
Theorem C21_dereference : forall E s e t a arr n s1,
  runs E s e (Ok (T_LIVE_VAR (D_T_PTR t) a arr n) s1) -> storage E s1 a 8 -> object_type t ->
  exists s2, runs E s (T_DEREF e) (Ok (T_LIVE_VAR t (unsigned_at (mem s1) a 8) false 0) s2) /\ only_gc E s1 s2.
Proof.
  intros E s e t a arr n s1 H Ha Ht. exists (after_tick E s1). split; [|apply ExprFacts.gc_only_tick].
  eapply dereference; eauto. apply object_not_comp, Ht.
Qed.
Print Assumptions C21_dereference.

(** For an array the address is that of its first element, so [*&x] is not the array. *)
Theorem C21_address_of_array : forall E s e t a n s1,
  reachable E s -> runs E s e (Ok (T_LIVE_VAR t a true n) s1) -> storage E s1 a 8 ->
  out_of_memory E s (T_ADDR e) 16 \/
  exists p s2, runs E s (T_ADDR e) (Ok (T_LIVE_VAR (D_T_PTR t) p false 0) s2) /\ only_new E s1 [] s2 /\
    new_object E s1 p 16 s2 /\ unsigned_at (mem s2) p 8 = unsigned_at (mem s1) a 8.
Proof. intros E s e t a n s1 Hr H Ha. apply (address_array E s e t a n s1 H); auto. eapply reachable_nonempty, reachable_runs; eauto. Qed.
Print Assumptions C21_address_of_array.

(** [short x = 5; int y[3];] *)
Definition with_short : state := after
  [T_DECL 1 (specs [T_SHORT_TS]) (CHAIN_HEAD [T_ASSIGN 1 (id "x") (num 5)]);
   T_DECL 2 int_specs (CHAIN_HEAD [T_ARRAY (id "y") (num 3)])].
Example C21_nontrivial : exists a p base,
  reachable env0 with_short /\ means with_short "x" (T_LIVE_VAR (D_T D_T_SHORT) a false 0) /\
  storage env0 with_short a 2 /\ 0 <= a < 2 ^ 64 /\ value_at with_short D_T_SHORT a = 5 /\
  value (outcome with_short (T_DEREF (T_ADDR (id "x")))) = Some (T_LIVE_VAR (D_T D_T_SHORT) a false 0) /\
  plain with_short 9 (T_DEREF (T_ADDR (id "x"))) /\
  value_at (final_state (outcome with_short (T_ASSIGN 9 (T_DEREF (T_ADDR (id "x"))) (num 70000)))) D_T_SHORT a = 4464 /\
  means with_short "y" (T_LIVE_VAR (D_T_PTR (D_T D_T_INT)) p true 12) /\ storage env0 with_short p 8 /\
  unsigned_at (mem with_short) p 8 = base /\
  value (outcome with_short (T_DEREF (T_ADDR (id "y")))) = Some (T_LIVE_VAR (D_T_PTR (D_T D_T_INT)) base false 0).
Proof.
  eexists _, _, _. split; [apply reachable_after|].
  split; [apply means_lookup; [discriminate|vm_compute; reflexivity]|].
  split; [apply storageb_ok; vm_compute; reflexivity|]. split; [lia|]. split; [vm_compute; reflexivity|].
  split; [vm_compute; reflexivity|]. split; [left; vm_compute; reflexivity|]. split; [vm_compute; reflexivity|].
  split; [apply means_lookup; [discriminate|vm_compute; reflexivity]|].
  split; [apply storageb_ok; vm_compute; reflexivity|]. split; [vm_compute; reflexivity|]. vm_compute; reflexivity.
Qed.

(** ** C22: arrays *)

(** The declaration [T x[e];]: the elements are a new object of |e| times the size of T bytes
    (modulo 2^64), the name is a variable that holds its address. *)
Theorem C22_declaration : forall E l specs t n x rho e z s c cs,
  zfind l (statics s) = None -> names_type specs t -> scalar t -> object_type (pointer_to n t) -> no_storage_class specs ->
  stack s = c :: cs -> ~ In x (map fst (c_idmap c)) -> reads E s rho e -> denote rho e = Some z ->
  let size := (scalar_width (pointer_to n t) * (Z.abs z mod 2 ^ 64)) mod 2 ^ 64 in
  let d := T_DECL l (CHAIN_HEAD (map T_SPEC specs)) (CHAIN_HEAD [stars n (T_ARRAY (T_IDENTIFIER x) (syntax e))]) in
  out_of_memory E s d 16 \/ out_of_memory E s d size \/
  exists v s', runs E s d (Ok (T_IDENTIFIER x) s') /\ only_new E s [(x, v)] s' /\ array_made E s (pointer_to n t) size v s' /\
    means s' x v.
Proof.
  intros E l specs t n x rho e z s c cs Hl Hn Ht Ho Hc Hs Hx Hr He size d.
  destruct (array_declaration E l specs t n x rho e z s c cs Hl Hn Ht Ho Hc Hs (not_in_declares _ _ Hx) Hr He) as [H|[H|(v & s' & H & N & A)]]; [left; exact H|right; left; exact H|].
  right. right. exists v, s'. split; [exact H|]. split; [exact N|]. split; [exact A|].
  destruct N as ((c0 & cs0 & al & Q1 & Q2 & _) & _). rewrite Hs in Q1. injection Q1 as <- <-.
  assert (Hv : v <> NULL) by (destruct A as (p & b & -> & _); discriminate).
  exists [], (scope_plus c [(x, v)] al). unfold visible. rewrite Q2. eexists. split; [reflexivity|]. split; [intros ? []|].
  split; [exact Hv|]. apply NameFacts.entry_resolve; [exact Hv|]. apply resolve_id_app_r, Hx.
Qed.
Print Assumptions C22_declaration.

(** Element [i] of an array or pointer whose elements [0 .. k-1] lie below 2^64: it starts |i| times
    the element size after the first one.  So elements with different |i| < k are disjoint and lie
    inside the [k] elements. *)
Theorem C22_element : forall E s x rho e i t p arr n k, let w := scalar_width t in let base := unsigned_at (mem s) p 8 in
  reachable E s -> means s x (T_LIVE_VAR (D_T_PTR t) p arr n) -> storage E s p 8 -> base + w * k <= 2 ^ 64 ->
  object_type t -> reads E s rho e -> denote rho e = Some i -> Z.abs i < k ->
  out_of_memory E s (T_ARRAY_ACCESS (T_IDENTIFIER x) (syntax e)) 16 \/
  exists s', runs E s (T_ARRAY_ACCESS (T_IDENTIFIER x) (syntax e)) (Ok (T_LIVE_VAR t (base + w * Z.abs i) false 0) s') /\ only_new E s [] s'.
Proof. intros E s x rho e i t p arr n k w base Hr. apply element. apply (reachable_nonempty E s Hr). Qed.
Print Assumptions C22_element.

(** A store into one element: the other elements, all other storage and all names stay as they are. *)
Theorem C22_store : forall E s x rho e1 e2 i v c p arr n k l, let base := unsigned_at (mem s) p 8 in
  let lhs := T_ARRAY_ACCESS (T_IDENTIFIER x) (syntax e1) in
  reachable E s -> plain s l lhs -> means s x (T_LIVE_VAR (D_T_PTR (D_T c)) p arr n) -> storage E s p 8 ->
  storage E s base (width c * k) -> base + width c * k <= 2 ^ 64 -> integer_type c = true ->
  reads E s rho e1 -> denote rho e1 = Some i -> Z.abs i < k -> reads E s rho e2 -> computed e2 -> denote rho e2 = Some v ->
  out_of_memory E s (T_ASSIGN l lhs (syntax e2)) 16 \/
  exists s' w, runs E s (T_ASSIGN l lhs (syntax e2)) (Ok (T_INTEGER v) s') /\ clipped v w /\
    wraps c w (value_at s' c (base + width c * Z.abs i)) /\
    (forall j, 0 <= j < k -> j <> Z.abs i -> value_at s' c (base + width c * j) = value_at s c (base + width c * j)) /\
    (forall b, storage E s b 1 -> b < base \/ base + width c * k <= b -> mem s' b = mem s b) /\
    (forall b m, storage E s b m -> storage E s' b m) /\ (forall y, lookup s' y = lookup s y).
Proof. intros E s x rho e1 e2 i v c p arr n k l base lhs Hr. apply element_store. apply (reachable_nonempty E s Hr). Qed.
Print Assumptions C22_store.

(** [sizeof e]: for an array the size in bytes, for other variables and types the size of the type. *)
Theorem C22_sizeof : forall E s e r n s1,
  reachable E s -> runs E s e (Ok r s1) -> value_size s1 r n ->
  out_of_memory E s (T_SIZEOF e) 16 \/
  exists p s2, runs E s (T_SIZEOF e) (Ok (T_LIVE_VAR (D_T D_T_ULONG) p false 0) s2) /\ only_new E s1 [] s2 /\
    new_object E s1 p 16 s2 /\ unsigned_at (mem s2) p 8 = n mod 2 ^ 64.
Proof. intros E s e r n s1 Hr H. apply size_of_value; auto. eapply reachable_nonempty, reachable_runs; eauto. Qed.
Print Assumptions C22_sizeof.

(** [int n = 3;] and after [short *a[n + 1]; short b[n];], [b[1] = 7; b[-2] = 9;] *)
Definition before_arrays : state := after [init_int 1 "n" (num 3)].
Definition decl_b : tree := T_DECL 2 (specs [T_SHORT_TS]) (CHAIN_HEAD [stars 0 (T_ARRAY (id "b") (syntax (Var "n")))]).
Definition arrays : state := after
  [init_int 1 "n" (num 3); decl_b; T_ASSIGN 4 (T_ARRAY_ACCESS (id "b") (num 1)) (num 7);
   T_ASSIGN 5 (T_ARRAY_ACCESS (id "b") (num (-2))) (num 9)].
Example C22_nontrivial : exists p base,
  let rho := fun y : string => 3 in
  zfind 2 (statics before_arrays) = None /\ names_type [T_SHORT_TS] (D_T D_T_SHORT) /\
  reads env0 before_arrays rho (Var "n") /\ denote rho (Var "n") = Some 3 /\
  (exists c cs, stack before_arrays = c :: cs /\ ~ In "b" (map fst (c_idmap c))) /\
  value (outcome before_arrays decl_b) = Some (id "b") /\
  reachable env0 arrays /\ means arrays "b" (T_LIVE_VAR (D_T_PTR (D_T D_T_SHORT)) p true 6) /\ storage env0 arrays p 8 /\
  unsigned_at (mem arrays) p 8 = base /\ storage env0 arrays base 6 /\
  value_at arrays D_T_SHORT (base + 2) = 7 /\ value_at arrays D_T_SHORT (base + 4) = 9 /\
  value (outcome arrays (T_ARRAY_ACCESS (id "b") (num 2))) = Some (T_LIVE_VAR (D_T D_T_SHORT) (base + 4) false 0) /\
  (let s' := final_state (outcome arrays (T_ASSIGN 6 (T_ARRAY_ACCESS (id "b") (num 1)) (num 65535))) in
   value_at s' D_T_SHORT (base + 2) = -1 /\ value_at s' D_T_SHORT (base + 4) = 9) /\
  value_size arrays (T_LIVE_VAR (D_T_PTR (D_T D_T_SHORT)) p true 6) 6 /\
  (exists q, value (outcome arrays (T_SIZEOF (id "b"))) = Some (T_LIVE_VAR (D_T D_T_ULONG) q false 0) /\
     unsigned_at (mem (final_state (outcome arrays (T_SIZEOF (id "b"))))) q 8 = 6).
Proof.
  eexists _, _. cbv zeta. split; [vm_compute; reflexivity|]. split; [apply SpecTypesFacts.resolve_type; reflexivity|].
  split; [intros y Hy; cbn in Hy; subst y; apply numberb_ok; vm_compute; reflexivity|]. split; [reflexivity|].
  split; [apply no_nameb_ok; vm_compute; reflexivity|].
  split; [vm_compute; reflexivity|]. split; [apply reachable_after|].
  split; [apply means_lookup; [discriminate|vm_compute; reflexivity]|].
  split; [apply storageb_ok; vm_compute; reflexivity|]. split; [vm_compute; reflexivity|].
  split; [apply storageb_ok; vm_compute; reflexivity|]. split; [vm_compute; reflexivity|]. split; [vm_compute; reflexivity|].
  split; [vm_compute; reflexivity|]. split; [split; vm_compute; reflexivity|]. split; [constructor|].
  eexists. split; [vm_compute; reflexivity|vm_compute; reflexivity].
Qed.

(** ** C26: enumerations *)

(** The declaration [enum tag { ... };]: the enumerators get the values of [enumerated] and become
    constants of the current scope; nothing else changes. *)
Theorem C26_enumeration : forall E l sc tag is rho r s c cs,
  zfind l (statics s) = None -> sane_prefix sc -> no_storage_class sc -> enumerated rho 0 is r -> stack s = c :: cs -> is <> [] ->
  NoDup (map fst (enum_tag tag) ++ map fst is) ->
  (forall x, In x (map fst (enum_tag tag) ++ map fst is) -> ~ In x (map fst (c_idmap c))) -> names_known E s rho [] is ->
  (forall t, tag = Some t -> Forall (fun i => match snd i with Some (_, e) => ~ mentions e t | None => True end) is) ->
  exists s', runs E s (T_DECL l (CHAIN_HEAD (map T_SPEC sc ++ [T_ENUMERATOR (enum_tag_tree tag) (CHAIN_HEAD (map enumerator_tree is))])) NULL)
      (Ok NULL s') /\ names_added E s (enum_names tag r) s' /\
    forall x v, In (x, v) r -> runs E s' (T_IDENTIFIER x) (Ok (T_INTEGER v) s').
Proof.
  intros E l sc tag is rho r s c cs Hl Hsa Hsc He Hs Hne Hn Hx Hk Ht.
  destruct (enum_declaration E l sc tag is rho r s c cs) as (s' & H & A); auto.
  exists s'. split; [exact H|]. split; [exact A|]. intros x v Hi.
  assert (Hmap : map fst (enum_names tag r) = map fst (enum_tag tag) ++ map fst is).
  { unfold enum_names. rewrite map_app, map_map. f_equal. clear - He. induction He; cbn in *; congruence. }
  apply (proj2 (innermost _ _ _ _ _)). split; [|reflexivity].
  assert (Hin : In (x, T_INTEGER v) (enum_names tag r)).
  { apply in_or_app. right. apply (in_map (fun p => (fst p, T_INTEGER (snd p)))) in Hi. exact Hi. }
  apply (added_means E s (enum_names tag r) s' c cs x (T_INTEGER v) Hs A); auto; [rewrite Hmap; exact Hn|discriminate|].
  apply Hx. rewrite <- Hmap. apply (in_map fst) in Hin. exact Hin.
Qed.
Print Assumptions C26_enumeration.

(** [int n = 10;  enum E { A, B = n - 12, C, D = B << 31, F = C };] gives 0, 2, 3, 0, 3. *)
Definition before_enum : state := after [init_int 1 "n" (num 10)].
Definition E_items : list enumerator :=
  [("A", None); ("B", Some (10, Bin SUB (Var "n") (Lit 12))); ("C", None);
   ("D", Some (11, Bin LSHIFT (Var "B") (Lit 31))); ("F", Some (12, Var "C"))].
Definition enum_E : tree :=
  T_DECL 2 (CHAIN_HEAD [T_ENUMERATOR (enum_tag_tree (Some "E")) (CHAIN_HEAD (map enumerator_tree E_items))]) NULL.
Example C26_nontrivial :
  enumerated (fun _ => 10) 0 E_items [("A", 0); ("B", 2); ("C", 3); ("D", 0); ("F", 3)] /\
  names_known env0 before_enum (fun _ => 10) [] E_items /\
  NoDup (map fst (enum_tag (Some "E")) ++ map fst E_items) /\
  Forall (fun i : enumerator => match snd i with Some (_, e) => ~ mentions e "E" | None => True end) E_items /\
  zfind 2 (statics before_enum) = None /\
  value (outcome before_enum enum_E) = Some NULL /\
  map (lookup (final_state (outcome before_enum enum_E))) ["A"; "B"; "C"; "D"; "F"; "E"] =
    [num 0; num 2; num 3; num 0; num 3; D_T D_T_UINT].
Proof.
  split.
  { apply en_next. eapply (en_value _ _ "B" 10 _ (-2)); [reflexivity|]. apply en_next.
    eapply (en_value _ _ "D" 11 _ (2 ^ 32)); [reflexivity|]. eapply (en_value _ _ "F" 12 _ 3); [reflexivity|]. apply en_nil. }
  split. { cbn [names_known E_items]. split; [exact I|]. split; [split; [left; vm_compute; reflexivity|]|].
    { intros y [Hy|[]]. cbn in Hy. subst y. right. apply numberb_ok. vm_compute. reflexivity. }
    split; [exact I|]. split; [split; [left; vm_compute; reflexivity|]|].
    { intros y [Hy|[]]. cbn in Hy. subst y. left. right. left. reflexivity. }
    split; [split; [left; vm_compute; reflexivity|]|exact I].
    intros y Hy. cbn in Hy. subst y. left. right. left. reflexivity. }
  split. { cbn. repeat constructor; cbn; intuition congruence. }
  split. { repeat constructor; cbn; intuition congruence. }
  split; [vm_compute; reflexivity|]. split; vm_compute; reflexivity.
Qed.

(** ** C27: typedefs *)

(** [typedef T *N, ...;] makes the names mean the types and changes nothing else. *)
Theorem C27_typedef : forall E l specs t ds s c cs,
  zfind l (statics s) = None -> base_type s specs t -> In (T_SPEC T_TYPEDEF) specs -> stack s = c :: cs -> t <> NULL ->
  NoDup (map snd ds) -> (forall x, In x (map snd ds) -> ~ In x (map fst (c_idmap c))) ->
  exists s', runs E s (T_DECL l (CHAIN_HEAD specs) (CHAIN_HEAD (map (fun d => stars (fst d) (T_IDENTIFIER (snd d))) ds)))
      (Ok (last (map (fun d => T_IDENTIFIER (snd d)) ds) NULL) s') /\ names_added E s (typedef_names t ds) s' /\
    forall n x, In (n, x) ds -> means s' x (pointer_to n t).
Proof.
  intros E l specs t ds s c cs Hl Hb Hty Hs Ht Hn Hx.
  destruct (typedef_declaration E l specs t ds s c cs) as (s' & H & A); auto.
  exists s'. split; [exact H|]. split; [exact A|]. intros n x Hi.
  assert (Hm : map fst (typedef_names t ds) = map snd ds) by (unfold typedef_names; rewrite map_map; reflexivity).
  apply (added_means E s (typedef_names t ds) s' c cs x _ Hs A).
  - rewrite Hm. exact Hn.
  - unfold typedef_names. apply (in_map (fun d => (snd d, pointer_to (fst d) t))) in Hi. exact Hi.
  - destruct n; [exact Ht|discriminate].
  - apply Hx. apply (in_map snd) in Hi. exact Hi.
Qed.
Print Assumptions C27_typedef.

(** A declaration has the same outcome, whatever it is, with a name for a type and with any other
    specifiers for the same type. *)
Theorem C27_transparent : forall E l specs specs' decls t s, base_type s specs t -> base_type s specs' t -> same_classes specs specs' ->
  forall r, runs E s (T_DECL l (CHAIN_HEAD specs) decls) r <-> runs E s (T_DECL l (CHAIN_HEAD specs') decls) r.
Proof.
  intros E l specs specs' decls t s H1 H2 Hc r. split; apply (transparent E l _ _ decls t); auto.
  intros x Hx. symmetry. apply Hc, Hx.
Qed.
Print Assumptions C27_transparent.

(** In particular the variables declared with it have the type and the storage. *)
Theorem C27_variables : forall E l specs t ds s c cs,
  zfind l (statics s) = None -> base_type s specs t -> scalar t ->
  (forall x, In x [T_TYPEDEF; T_EXTERN; T_STATIC] -> ~ In (T_SPEC x) specs) ->
  stack s = c :: cs -> NoDup (map snd ds) -> (forall x, In x (map snd ds) -> ~ declares c x) ->
  let d := T_DECL l (CHAIN_HEAD specs) (CHAIN_HEAD (map (fun d => stars (fst d) (T_IDENTIFIER (snd d))) ds)) in
  out_of_memory E s d 16 \/
  exists s', runs E s d (Ok (last (map (fun d => T_IDENTIFIER (snd d)) ds) NULL) s') /\ declared_all E t s ds s'.
Proof. exact base_variables. Qed.
Print Assumptions C27_variables.

(** [typedef unsigned short *P, Q;] and then [static P x;], [Q y;], [unsigned short y;]. *)
Definition types_PQ : tree :=
  T_DECL 1 (specs [T_TYPEDEF; T_UNSIGNED_TS; T_SHORT_TS]) (CHAIN_HEAD (map (fun d => stars (fst d) (id (snd d))) [(1%nat, "P"); (0%nat, "Q")])).
Definition with_PQ : state := after [types_PQ].
Example C27_nontrivial :
  zfind 1 (statics s0) = None /\ base_type s0 (map T_SPEC [T_TYPEDEF; T_UNSIGNED_TS; T_SHORT_TS]) (D_T D_T_USHORT) /\
  reachable env0 with_PQ /\ means with_PQ "P" (D_T_PTR (D_T D_T_USHORT)) /\
  base_type with_PQ [T_SPEC T_STATIC; T_IDENTIFIER "P"] (D_T_PTR (D_T D_T_USHORT)) /\
  base_type with_PQ [T_IDENTIFIER "Q"] (D_T D_T_USHORT) /\
  base_type with_PQ (map T_SPEC [T_UNSIGNED_TS; T_SHORT_TS]) (D_T D_T_USHORT) /\
  same_classes [T_IDENTIFIER "Q"] (map T_SPEC [T_UNSIGNED_TS; T_SHORT_TS]) /\
  (exists a, lookup (final_state (outcome with_PQ (T_DECL 2 (CHAIN_HEAD [T_SPEC T_STATIC; T_IDENTIFIER "P"]) (CHAIN_HEAD [id "x"])))) "x" =
     T_LIVE_VAR (D_T_PTR (D_T D_T_USHORT)) a false 0) /\
  (exists a, lookup (final_state (outcome with_PQ (T_DECL 3 (CHAIN_HEAD [T_IDENTIFIER "Q"]) (CHAIN_HEAD [id "y"])))) "y" =
     T_LIVE_VAR (D_T D_T_USHORT) a false 0).
Proof.
  assert (H1 : means with_PQ "P" (D_T_PTR (D_T D_T_USHORT))) by (apply means_lookup; [discriminate|vm_compute; reflexivity]).
  assert (H2 : means with_PQ "Q" (D_T D_T_USHORT)) by (apply means_lookup; [discriminate|vm_compute; reflexivity]).
  split; [vm_compute; reflexivity|]. split; [apply base_words, SpecTypesFacts.resolve_type; reflexivity|].
  split; [apply reachable_after|]. split; [exact H1|].
  split; [apply (base_name with_PQ [T_STATIC] "P" []); [|exact H1]|].
  { split; [intros x []|]. exists []. split; [constructor|]. left. constructor. }
  split; [apply (base_name with_PQ [] "Q" []); [|exact H2]|].
  { split; [intros x []|]. exists []. split; [constructor|]. left. constructor. }
  split; [apply base_words, SpecTypesFacts.resolve_type; reflexivity|].
  split; [intros x Hx; cbn in *; intuition congruence|].
  split; eexists; vm_compute; reflexivity.
Qed.
