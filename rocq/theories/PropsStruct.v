(** Property theorems about structures and unions: C21 (arrow), C23, C24, C25. *)
From Coq Require Import ZArith List String Bool Lia.
From Verif Require Import CInt Tree State Eval StepsFacts SpecRun SpecExpr SpecNames SpecTypes SpecVars SpecCalls SpecStatic
  SpecPtr SpecEnum SpecStruct RunFacts NameFacts VarFacts StaticFacts PtrFacts EnumFacts StructFacts ObjectFacts TestEnv TestRun.
Import ListNotations.
Local Open Scope string_scope.
Local Open Scope Z_scope.
Local Open Scope list_scope.

(** ** C23: structures *)

(** A structure declaration gives the members the places of [placed] from 0 on: each at the first
    multiple of its scalar size that is not before the end of the previous member.  The size is the
    end of the last member.  Nothing but the tag and the type is new. *)
Theorem C23_structure : forall E l tag gs rho fs ps size s c cs, let d := compound_tree l sstruct tag gs in
  stack s = c :: cs -> zfind l (comps s) = None -> tag_free sstruct tag c -> own_labels s ->
  Forall2 (describes E (tagged sstruct tag d s) rho (Some l)) (members gs) fs -> placed 0 fs ps size -> size < 2 ^ 31 ->
  (exists n, out_of_memory E s d n) \/
  exists s', runs E s d (Ok d s') /\ only_type E (tagged sstruct tag d s) l s' /\ complete s' d sstruct (members gs) ps size /\
    Forall2 (describes E s' rho None) (members gs) fs /\ (forall x, tag = Some x -> tag_means s' sstruct x d).
Proof.
  intros E l tag gs rho fs ps size s c cs d Hs Hl Hf Ho Hd Hp Hz.
  destruct (compound_declared E l sstruct tag gs rho fs ps size s c cs Hs Hl Hf Ho Hd (conj Hp Hz)) as [H|(s' & H & T & HC)]; [left; exact H|].
  right. exists s'. split; [exact H|]. split; [exact T|]. split; [exact HC|]. split; [eapply after_declared; eauto|].
  intros x ->. eapply tag_declared; eauto. discriminate.
Qed.
Print Assumptions C23_structure.

(** The same for the statement [struct tag { ... };]. *)
Theorem C23_statement : forall E l0 w l tag gs rho fs ps size s c cs, let d := compound_tree l sstruct tag gs in
  let st := T_DECL l0 (CHAIN_HEAD (map T_SPEC w ++ [d])) NULL in
  zfind l0 (statics s) = None -> sane_prefix w -> no_class (map T_SPEC w) ->
  stack s = c :: cs -> zfind l (comps s) = None -> tag_free sstruct tag c -> own_labels s ->
  Forall2 (describes E (tagged sstruct tag d s) rho (Some l)) (members gs) fs -> placed 0 fs ps size -> size < 2 ^ 31 ->
  (exists n, out_of_memory E s st n) \/
  exists s', runs E s st (Ok NULL s') /\ only_type E (tagged sstruct tag d s) l s' /\ complete s' d sstruct (members gs) ps size /\
    Forall2 (describes E s' rho None) (members gs) fs /\ (forall x, tag = Some x -> tag_means s' sstruct x d).
Proof.
  intros E l0 w l tag gs rho fs ps size s c cs d st Hl0 Hw Hc Hs Hl Hf Ho Hd Hp Hz.
  destruct (compound_statement E l0 w l sstruct tag gs rho fs ps size s c cs Hl0 Hw Hc Hs Hl Hf Ho Hd (conj Hp Hz)) as [H|(s' & H & T & HC)]; [left; exact H|].
  right. exists s'. split; [exact H|]. split; [exact T|]. split; [exact HC|]. split; [eapply after_declared; eauto|].
  intros x ->. eapply tag_declared; eauto. discriminate.
Qed.
Print Assumptions C23_statement.

(** For every member list there is exactly one such layout.  In it the members are in the order of
    their declarations and disjoint, inside the size, each at a multiple of its scalar size, with
    less than that of padding before it, and the last one ends the structure. *)
Theorem C23_layout : forall E s rho l ms fs, Forall2 (describes E s rho l) ms fs ->
  exists ps size, placed 0 fs ps size /\ (forall ps' size', placed 0 fs ps' size' -> ps' = ps /\ size' = size) /\
    ForallOrdPairs (fun m m' => snd m + f_size (fst m) <= snd m') (combine fs ps) /\
    inside size fs ps /\
    Forall2 (fun f p => exists k, p = k * f_align f) fs ps /\
    (forall fs1 f fs2 ps1 p ps2, fs = fs1 ++ f :: fs2 -> ps = ps1 ++ p :: ps2 -> List.length fs1 = List.length ps1 ->
       exists o, placed 0 fs1 ps1 o /\ o <= p < o + f_align f) /\
    (forall fs1 f ps1 p, fs = fs1 ++ [f] -> ps = ps1 ++ [p] -> size = p + f_size f).
Proof. exact layout_facts. Qed.
Print Assumptions C23_layout.

(** ** C24: unions *)

Theorem C24_union : forall E l tag gs rho fs s c cs, let d := compound_tree l uunion tag gs in
  stack s = c :: cs -> zfind l (comps s) = None -> tag_free uunion tag c -> own_labels s ->
  Forall2 (describes E (tagged uunion tag d s) rho (Some l)) (members gs) fs -> largest fs < 2 ^ 64 ->
  (exists n, out_of_memory E s d n) \/
  exists s', runs E s d (Ok d s') /\ only_type E (tagged uunion tag d s) l s' /\
    complete s' d uunion (members gs) (map (fun _ => 0) fs) (largest fs) /\
    Forall2 (describes E s' rho None) (members gs) fs /\ (forall x, tag = Some x -> tag_means s' uunion x d).
Proof.
  intros E l tag gs rho fs s c cs d Hs Hl Hf Ho Hd Hz.
  destruct (compound_declared E l uunion tag gs rho fs (map (fun _ => 0) fs) (largest fs) s c cs Hs Hl Hf Ho Hd
    (conj eq_refl (conj eq_refl Hz))) as [H|(s' & H & T & HC)]; [left; exact H|].
  right. exists s'. split; [exact H|]. split; [exact T|]. split; [exact HC|]. split; [eapply after_declared; eauto|].
  intros x ->. eapply tag_declared; eauto. discriminate.
Qed.
Print Assumptions C24_union.

(** The same for the statement [union tag { ... };]. *)
Theorem C24_statement : forall E l0 w l tag gs rho fs s c cs, let d := compound_tree l uunion tag gs in
  let st := T_DECL l0 (CHAIN_HEAD (map T_SPEC w ++ [d])) NULL in
  zfind l0 (statics s) = None -> sane_prefix w -> no_class (map T_SPEC w) ->
  stack s = c :: cs -> zfind l (comps s) = None -> tag_free uunion tag c -> own_labels s ->
  Forall2 (describes E (tagged uunion tag d s) rho (Some l)) (members gs) fs -> largest fs < 2 ^ 64 ->
  (exists n, out_of_memory E s st n) \/
  exists s', runs E s st (Ok NULL s') /\ only_type E (tagged uunion tag d s) l s' /\
    complete s' d uunion (members gs) (map (fun _ => 0) fs) (largest fs) /\
    Forall2 (describes E s' rho None) (members gs) fs /\ (forall x, tag = Some x -> tag_means s' uunion x d).
Proof.
  intros E l0 w l tag gs rho fs s c cs d st Hl0 Hw Hc Hs Hl Hf Ho Hd Hz.
  destruct (compound_statement E l0 w l uunion tag gs rho fs (map (fun _ => 0) fs) (largest fs) s c cs Hl0 Hw Hc Hs Hl Hf Ho Hd
    (conj eq_refl (conj eq_refl Hz))) as [H|(s' & H & T & HC)]; [left; exact H|].
  right. exists s'. split; [exact H|]. split; [exact T|]. split; [exact HC|]. split; [eapply after_declared; eauto|].
  intros x ->. eapply tag_declared; eauto. discriminate.
Qed.
Print Assumptions C24_statement.

(** The size is that of the largest member. *)
Theorem C24_size : forall E s rho l ms fs, Forall2 (describes E s rho l) ms fs ->
  (forall f, In f fs -> f_size f <= largest fs) /\ (fs <> [] -> exists f, In f fs /\ f_size f = largest fs).
Proof. exact largest_facts. Qed.
Print Assumptions C24_size.

(** A store into the member [m] of a union is seen through every integer member that is not wider. *)
Theorem C24_shared : forall E s s1 x m m' t tbl base size fs rho e v c c' l, let lhs := T_COMP_ACCESS (T_IDENTIFIER x) (T_IDENTIFIER m) in
  means s x (T_LIVE_COMPOUND t tbl base) -> member_table E s1 base s fs (map (fun _ => 0) fs) tbl -> NoDup (map f_name fs) ->
  stack s <> [] -> storage E s1 base size -> storage E s base size -> inside size fs (map (fun _ => 0) fs) ->
  In (m, D_T c, None) fs -> In (m', D_T c', None) fs -> integer_type c = true -> integer_type c' = true -> width c' <= width c ->
  plain s l lhs -> reads E s rho e -> computed e -> denote rho e = Some v ->
  exists s' w, runs E s (T_ASSIGN l lhs (syntax e)) (Ok (T_INTEGER v) s') /\ clipped v w /\
    runs E s' (T_COMP_ACCESS (T_IDENTIFIER x) (T_IDENTIFIER m')) (Ok (T_LIVE_VAR (D_T c') base false 0) s') /\
    wraps c' w (value_at s' c' base).
Proof. exact union_shared. Qed.
Print Assumptions C24_shared.

(** ** C25: objects and their members *)

(** The declaration [T x;] for a complete structure or union type [T] makes a new object with the
    members of the type at their offsets. *)
Theorem C25_object : forall E l specs x t k mbs fs ps size rho s c cs,
  zfind l (statics s) = None -> spec_type s None specs t -> no_class specs ->
  stack s = c :: cs -> ~ In x (map fst (c_idmap c)) -> complete s t k mbs ps size -> Forall2 (describes E s rho None) mbs fs -> inside size fs ps ->
  let d := T_DECL l (CHAIN_HEAD specs) (CHAIN_HEAD [T_IDENTIFIER x]) in
  (exists n, out_of_memory E s d n) \/
  exists v s', runs E s d (Ok (T_IDENTIFIER x) s') /\ only_new E s [(x, v)] s' /\ object_made E s t fs ps size v s' /\ means s' x v.
Proof.
  intros E l specs x t k mbs fs ps size rho s c cs Hl Ht Hc Hs Hx HC Hd Hi d.
  destruct (object_variable E l None specs x t k mbs fs ps size rho s c cs Hl Ht Hc Hs Hx HC Hd Hi) as [H|(v & s' & H & N & O)]; [left; exact H|].
  right. exists v, s'. split; [exact H|]. split; [exact N|]. split; [exact O|].
  destruct N as ((c0 & cs0 & al & Q1 & Q2 & _) & _). rewrite Hs in Q1. injection Q1 as <- <-.
  assert (Hv : v <> NULL) by (destruct O as (p & b & s1 & -> & _); discriminate).
  exists [], (scope_plus c [(x, v)] al). unfold visible. rewrite Q2. eexists. split; [reflexivity|]. split; [intros ? []|].
  split; [exact Hv|]. apply NameFacts.entry_resolve; [exact Hv|]. apply resolve_id_app_r, Hx.
Qed.
Print Assumptions C25_object.

(** [x.m] is the member: for a scalar or pointer the variable of its type at its offset, for an
    array the pointer to its first element.  Nothing changes. *)
Theorem C25_access : forall E s s1 x t tbl base fs ps f p,
  means s x (T_LIVE_COMPOUND t tbl base) -> member_table E s1 base s fs ps tbl -> NoDup (map f_name fs) -> In (f, p) (combine fs ps) ->
  exists v, runs E s (T_COMP_ACCESS (T_IDENTIFIER x) (T_IDENTIFIER (f_name f))) (Ok v s) /\ member_entry E s1 base f p (f_name f, v) s.
Proof.
  intros E s s1 x t tbl base fs ps f p Hm Ht Hn Hin. exists (resolve_id (f_name f) tbl). split; [eapply access; eauto|].
  eapply table_entry; eauto.
Qed.
Print Assumptions C25_access.

(** An unknown member name yields no object. *)
Theorem C25_unknown : forall E s s1 x y t tbl base fs ps,
  means s x (T_LIVE_COMPOUND t tbl base) -> member_table E s1 base s fs ps tbl -> ~ In y (map f_name fs) ->
  runs E s (T_COMP_ACCESS (T_IDENTIFIER x) (T_IDENTIFIER y)) (Ok NULL s).
Proof. intros E s s1 x y t tbl base fs ps Hm Ht Hn. rewrite <- (table_unknown E s1 base s fs ps tbl y Ht Hn). eapply access; eauto. Qed.
Print Assumptions C25_unknown.

(** [x.m = e] changes the bytes of the member [m] only; the other members keep their bytes. *)
Theorem C25_store : forall E s s1 x m p t tbl base size fs ps rho e v c l, let lhs := T_COMP_ACCESS (T_IDENTIFIER x) (T_IDENTIFIER m) in
  means s x (T_LIVE_COMPOUND t tbl base) -> member_table E s1 base s fs ps tbl -> NoDup (map f_name fs) ->
  stack s <> [] -> storage E s1 base size -> storage E s base size -> inside size fs ps -> apart fs ps ->
  In ((m, D_T c, None), p) (combine fs ps) -> integer_type c = true ->
  plain s l lhs -> reads E s rho e -> computed e -> denote rho e = Some v ->
  exists s' w, runs E s (T_ASSIGN l lhs (syntax e)) (Ok (T_INTEGER v) s') /\ clipped v w /\ wraps c w (value_at s' c (base + p)) /\
    (forall f' p', In (f', p') (combine fs ps) -> f_name f' <> m -> forall b, base + p' <= b < base + p' + f_size f' -> mem s' b = mem s b) /\
    (forall b, storage E s b 1 -> b < base + p \/ base + p + width c <= b -> mem s' b = mem s b) /\
    (forall b m, storage E s b m -> storage E s' b m) /\ (forall y, lookup s' y = lookup s y) /\
    member_table E s1 base s' fs ps tbl.
Proof. exact dot_store. Qed.
Print Assumptions C25_store.

(** In an object as made by its declaration the members of a structure are apart (C23_layout) and
    everything that the theorems above ask of the object holds. *)
Theorem C25_made : forall E s rho l mbs t fs ps size v s',
  object_made E s t fs ps size v s' -> Forall2 (describes E s rho l) mbs fs ->
  (placed 0 fs ps size -> inside size fs ps /\ apart fs ps) /\
  exists s1 tbl base, v = T_LIVE_COMPOUND t tbl base /\ member_table E s1 base s' fs ps tbl /\
    storage E s1 base size /\ storage E s' base size.
Proof. exact made_facts. Qed.
Print Assumptions C25_made.

(** ** C21: members through pointers *)

(** [e->m], which the parser turns into [( *e).m]: the member of the structure or union at the address that the
    pointer holds. *)
Theorem C21_arrow : forall E s e t a arr n s1 k mbs fs ps size rho f p, let base := unsigned_at (mem s1) a 8 in
  reachable E s -> runs E s e (Ok (T_LIVE_VAR (D_T_PTR t) a arr n) s1) -> storage E s1 a 8 ->
  complete s1 t k mbs ps size -> Forall2 (describes E s1 rho None) mbs fs -> inside size fs ps -> base + size < 2 ^ 64 ->
  NoDup (map f_name fs) -> In (f, p) (combine fs ps) ->
  let d := T_COMP_ACCESS (T_DEREF e) (T_IDENTIFIER (f_name f)) in
  out_of_memory E s d 16 \/
  exists v s2, runs E s d (Ok v s2) /\ only_new E s1 [] s2 /\ member_entry E s1 base f p (f_name f, v) s2.
Proof.
  intros E s e t a arr n s1 k mbs fs ps size rho f p base Hr H Ha HC Hd Hi Hz Hn Hin d.
  destruct (arrow E s e (f_name f) t a arr n s1 k mbs fs ps size rho None H (reachable_nonempty _ _ (reachable_runs _ _ _ _ _ Hr H eq_refl)) Ha HC Hd Hi Hz)
    as [H'|(tbl & s2 & H' & N & T)]; [left; exact H'|right].
  exists (resolve_id (f_name f) tbl), s2. split; [exact H'|]. split; [exact N|]. eapply table_entry; eauto.
Qed.
Print Assumptions C21_arrow.

(** [( &x)->m] and [x.m] are the same variable. *)
Theorem C21_arrow_dot : forall E s s0 x t tbl base k mbs fs ps size rho f p,
  reachable E s -> means s x (T_LIVE_COMPOUND t tbl base) -> member_table E s0 base s fs ps tbl -> 0 < base ->
  complete s t k mbs ps size -> Forall2 (describes E s rho None) mbs fs -> inside size fs ps -> base + size < 2 ^ 64 ->
  NoDup (map f_name fs) -> In (f, p) (combine fs ps) -> snd f = None ->
  let d := T_COMP_ACCESS (T_DEREF (T_ADDR (T_IDENTIFIER x))) (T_IDENTIFIER (f_name f)) in
  let v := T_LIVE_VAR (f_type f) (base + p) false 0 in
  runs E s (T_COMP_ACCESS (T_IDENTIFIER x) (T_IDENTIFIER (f_name f))) (Ok v s) /\
  (out_of_memory E s d 16 \/ exists s', runs E s d (Ok v s') /\ only_new E s [] s').
Proof. exact arrow_dot. Qed.
Print Assumptions C21_arrow_dot.

(** A store through a pointer to a structure or union changes the member only. *)
Theorem C21_arrow_store : forall E s q m p t a arr n k mbs fs ps size rho e v c l, let base := unsigned_at (mem s) a 8 in
  let lhs := T_COMP_ACCESS (T_DEREF (T_IDENTIFIER q)) (T_IDENTIFIER m) in
  reachable E s -> means s q (T_LIVE_VAR (D_T_PTR t) a arr n) -> storage E s a 8 ->
  complete s t k mbs ps size -> Forall2 (describes E s rho None) mbs fs -> inside size fs ps -> base + size < 2 ^ 64 ->
  storage E s base size -> NoDup (map f_name fs) -> In ((m, D_T c, None), p) (combine fs ps) -> integer_type c = true ->
  plain s l lhs -> reads E s rho e -> computed e -> denote rho e = Some v ->
  out_of_memory E s (T_ASSIGN l lhs (syntax e)) 16 \/
  exists s' w, runs E s (T_ASSIGN l lhs (syntax e)) (Ok (T_INTEGER v) s') /\ clipped v w /\ wraps c w (value_at s' c (base + p)) /\
    (forall b, storage E s b 1 -> b < base + p \/ base + p + width c <= b -> mem s' b = mem s b) /\
    (forall b m, storage E s b m -> storage E s' b m) /\ (forall y, lookup s' y = lookup s y).
Proof. exact arrow_store. Qed.
Print Assumptions C21_arrow_store.

(** ** Examples *)

(** [struct S { char a; int b; short c[3]; char *d; int : 4; };] *)
Definition words (l : list spec) : list tree := map T_SPEC l.
Definition groups : list group :=
  [(-11, words [T_CHAR_TS], [DVar 0 "a"]); (-12, words [T_INT_TS], [DVar 0 "b"]);
   (-13, words [T_SHORT_TS], [DArray 0 "c" (Lit 3)]); (-14, words [T_CHAR_TS], [DVar 1 "d"]); (-15, words [T_INT_TS], [DUnnamed (num 4)])].
Definition fields : list field :=
  [("a", D_T D_T_CHAR, None); ("b", D_T D_T_INT, None); ("c", D_T D_T_SHORT, Some 3); ("d", D_T_PTR (D_T D_T_CHAR), None)].
Definition struct_S : tree := compound_tree (-1) sstruct (Some "S") groups.
Definition decl_S : tree := T_DECL (-2) (CHAIN_HEAD [struct_S]) NULL.

Lemma words_type s l w t : names_type w t -> spec_type s l (words w) t.
Proof. intros H. apply spec_base, base_words, H. Qed.
Ltac word := apply words_type, SpecTypesFacts.resolve_type; reflexivity.
Ltac classless := intros x [<-|[<-|[<-|[]]]] [H|[]]; discriminate H.
Lemma fields_S s l : Forall2 (describes env0 s (fun _ => 0) l) (members groups) fields.
Proof.
  constructor; [apply (de_var _ _ _ _ _ 0 "a" (D_T D_T_CHAR)); [word|classless|exact I]|].
  constructor; [apply (de_var _ _ _ _ _ 0 "b" (D_T D_T_INT)); [word|classless|exact I]|].
  constructor; [apply (de_array _ _ _ _ _ 0 "c" (Lit 3) (D_T D_T_SHORT)); [word|classless|exact I|intros y []|reflexivity|lia]|].
  constructor; [apply (de_var _ _ _ _ _ 1 "d" (D_T D_T_CHAR)); [word|classless|exact I]|].
  constructor.
Qed.
Lemma placed_S : placed 0 fields [0; 4; 8; 16] 24.
Proof.
  apply (placed_cons _ _ _ 0); [split; [cbn; lia|split; [exists 0; reflexivity|intros; lia]]|].
  apply (placed_cons _ _ _ 4); [split; [cbn; lia|split; [exists 1; reflexivity|cbn; intros q Hq (k & ->); lia]]|].
  apply (placed_cons _ _ _ 8); [split; [cbn; lia|split; [exists 4; reflexivity|cbn; intros q Hq (k & ->); lia]]|].
  apply (placed_cons _ _ _ 16); [split; [cbn; lia|split; [exists 2; reflexivity|cbn; intros q Hq (k & ->); lia]]|].
  constructor.
Qed.
Example C23_nontrivial : exists c cs,
  stack s0 = c :: cs /\ zfind (-1) (comps s0) = None /\ zfind (-2) (statics s0) = None /\ tag_free sstruct (Some "S") c /\ own_labels s0 /\
  Forall2 (describes env0 (tagged sstruct (Some "S") struct_S s0) (fun _ => 0) (Some (-1))) (members groups) fields /\
  placed 0 fields [0; 4; 8; 16] 24 /\
  option_map (fun c => (map m_off (cd_mem c), cd_sz c)) (view_comp (final_state (outcome s0 decl_S)) struct_S) = Some ([0; 4; 8; 16], 24).
Proof.
  eexists _, _. split; [vm_compute; reflexivity|]. split; [vm_compute; reflexivity|]. split; [vm_compute; reflexivity|].
  split; [vm_compute; intros []|]. split; [intros i Hi; vm_compute; reflexivity|]. split; [apply fields_S|]. split; [apply placed_S|]. vm_compute. reflexivity.
Qed.

(** [union U { char c; unsigned short s; int i; } ], [struct S x; union U u; struct S *p = &x;
    p->b = 300; u.i = 513;] *)
Definition union_groups : list group :=
  [(-21, words [T_CHAR_TS], [DVar 0 "c"]); (-22, words [T_UNSIGNED_TS; T_SHORT_TS], [DVar 0 "s"]); (-23, words [T_INT_TS], [DVar 0 "i"])].
Definition union_fields : list field := [("c", D_T D_T_CHAR, None); ("s", D_T D_T_USHORT, None); ("i", D_T D_T_INT, None)].
Definition union_U : tree := compound_tree (-3) uunion (Some "U") union_groups.
Definition decl_U : tree := T_DECL (-4) (CHAIN_HEAD [union_U]) NULL.
Definition ref_S (l : Z) : list tree := [T_DECL_COMPOUND l sstruct (id "S") NULL].
Definition ref_U (l : Z) : list tree := [T_DECL_COMPOUND l uunion (id "U") NULL].
Definition types : state := after [decl_S; decl_U].
Definition var_x : tree := T_DECL (-5) (CHAIN_HEAD (ref_S (-31))) (CHAIN_HEAD [id "x"]).
Definition var_u : tree := T_DECL (-6) (CHAIN_HEAD (ref_U (-32))) (CHAIN_HEAD [id "u"]).
Definition var_p : tree := T_DECL (-7) (CHAIN_HEAD (ref_S (-33))) (CHAIN_HEAD [T_POINTER (id "p")]).
Definition objects : state := after [decl_S; decl_U; var_x; var_u; var_p; T_ASSIGN (-8) (id "p") (T_ADDR (id "x"))].

Lemma fields_U s l : Forall2 (describes env0 s (fun _ => 0) l) (members union_groups) union_fields.
Proof.
  constructor; [apply (de_var _ _ _ _ _ 0 "c" (D_T D_T_CHAR)); [word|classless|exact I]|].
  constructor; [apply (de_var _ _ _ _ _ 0 "s" (D_T D_T_USHORT)); [word| |exact I]|].
  { intros x [<-|[<-|[<-|[]]]] [H|[H|[]]]; discriminate H. }
  constructor; [apply (de_var _ _ _ _ _ 0 "i" (D_T D_T_INT)); [word|classless|exact I]|].
  constructor.
Qed.
Example C24_nontrivial : exists c cs base,
  stack s0 = c :: cs /\ tag_free uunion (Some "U") c /\ own_labels s0 /\
  Forall2 (describes env0 (tagged uunion (Some "U") union_U s0) (fun _ => 0) (Some (-3))) (members union_groups) union_fields /\
  largest union_fields = 4 /\
  value (outcome objects (id "u")) = Some (T_LIVE_COMPOUND union_U
    [("c", T_LIVE_VAR (D_T D_T_CHAR) base false 0); ("s", T_LIVE_VAR (D_T D_T_USHORT) base false 0); ("i", T_LIVE_VAR (D_T D_T_INT) base false 0)] base) /\
  let s := final_state (outcome objects (T_ASSIGN (-9) (T_COMP_ACCESS (id "u") (id "i")) (num 66049))) in
  value_at s D_T_INT base = 66049 /\ value_at s D_T_CHAR base = 1 /\ value_at s D_T_USHORT base = 513.
Proof.
  eexists _, _, _. split; [vm_compute; reflexivity|]. split; [vm_compute; intros []|]. split; [intros i Hi; vm_compute; reflexivity|]. split; [apply fields_U|]. split; [reflexivity|].
  split; [vm_compute; reflexivity|]. cbv zeta. split; [vm_compute; reflexivity|]. split; vm_compute; reflexivity.
Qed.
Lemma reachable_types : reachable env0 types.
Proof. apply reachable_after. Qed.
Lemma tag_S : spec_type types None (ref_S (-31)) struct_S.
Proof.
  apply (spec_tag types None [] (-31) sstruct "S" [] struct_S); [split; [intros ? []|exists []; split; [constructor|left; constructor]]|vm_compute; reflexivity|discriminate|].
  apply tag_lookup; [discriminate|]. vm_compute. reflexivity.
Qed.
Lemma complete_S : complete types struct_S sstruct (members groups) [0; 4; 8; 16] 24.
Proof. eexists. split; [vm_compute; reflexivity|]. do 5 (split; [reflexivity|]). reflexivity. Qed.
Lemma inside_S : inside 24 fields [0; 4; 8; 16].
Proof. repeat constructor; cbn; lia. Qed.
Example C25_object_nontrivial : exists c cs,
  zfind (-5) (statics types) = None /\ spec_type types None (ref_S (-31)) struct_S /\ no_class (ref_S (-31)) /\
  stack types = c :: cs /\ ~ In "x" (map fst (c_idmap c)) /\ complete types struct_S sstruct (members groups) [0; 4; 8; 16] 24 /\
  Forall2 (describes env0 types (fun _ => 0) None) (members groups) fields /\ inside 24 fields [0; 4; 8; 16].
Proof.
  destruct (no_nameb_ok types "x") as (c & cs & H1 & H2); [vm_compute; reflexivity|]. exists c, cs.
  split; [vm_compute; reflexivity|]. split; [apply tag_S|]. split; [classless|]. split; [exact H1|]. split; [exact H2|].
  split; [apply complete_S|]. split; [apply fields_S|apply inside_S].
Qed.
Lemma not_oom s t v n : value (outcome s t) = Some v -> ~ out_of_memory env0 s t n.
Proof.
  intros H (s' & R & _). apply outcome_ok in H. revert H R. generalize (final_state (outcome s t)). intros s1 H R.
  pose proof (runs_fun _ _ _ _ _ H R) as X. discriminate X.
Qed.
(** The hypotheses of C25_access, C25_unknown and C25_store after [struct S x;]. *)
Example C25_store_nontrivial : exists s s1 tbl base, let lhs := T_COMP_ACCESS (id "x") (id "b") in
  reachable env0 s /\ means s "x" (T_LIVE_COMPOUND struct_S tbl base) /\ member_table env0 s1 base s fields [0; 4; 8; 16] tbl /\
  NoDup (map f_name fields) /\ storage env0 s1 base 24 /\ storage env0 s base 24 /\ apart fields [0; 4; 8; 16] /\
  In (("b", D_T D_T_INT, None), 4) (combine fields [0; 4; 8; 16]) /\ plain s (-9) lhs.
Proof.
  destruct C25_object_nontrivial as (c & cs & H1 & H2 & H3 & H4 & H5 & H6 & H7 & H8).
  destruct (C25_object env0 (-5) (ref_S (-31)) "x" struct_S sstruct (members groups) fields [0; 4; 8; 16] 24 (fun _ => 0) types c cs H1 H2 H3 H4 H5 H6 H7 H8)
    as [(n & H)|(v & s' & H & N & O & M)].
  - exfalso. revert H. apply (not_oom types var_x (id "x") n). vm_compute. reflexivity.
  - destruct (C25_made _ _ _ _ _ _ _ _ _ _ _ O H7) as [A (s1 & tbl & base & -> & T & S1 & S2)]. destruct (A placed_S) as [_ A2].
    exists s', s1, tbl, base. cbv zeta. split; [exact (reachable_runs env0 types _ _ s' reachable_types H eq_refl)|].
    split; [exact M|]. split; [exact T|]. split.
    { cbn. repeat constructor; cbn; intuition discriminate. }
    split; [exact S1|]. split; [exact S2|]. split; [exact A2|]. split; [right; left; reflexivity|]. left.
    destruct N as (_ & _ & (_ & _ & _ & -> & _)). vm_compute. reflexivity.
Qed.
Example C25_nontrivial : exists base q,
  reachable env0 objects /\
  value (outcome objects (id "x")) = Some (T_LIVE_COMPOUND struct_S
    [("a", T_LIVE_VAR (D_T D_T_CHAR) base false 0); ("b", T_LIVE_VAR (D_T D_T_INT) (base + 4) false 0);
     ("c", T_LIVE_VAR (D_T_PTR (D_T D_T_SHORT)) q true 6); ("d", T_LIVE_VAR (D_T_PTR (D_T D_T_CHAR)) (base + 16) false 0)] base) /\
  unsigned_at (mem objects) q 8 = base + 8 /\
  value (outcome objects (T_COMP_ACCESS (T_DEREF (id "p")) (id "b"))) = Some (T_LIVE_VAR (D_T D_T_INT) (base + 4) false 0) /\
  value (outcome objects (T_COMP_ACCESS (T_DEREF (T_ADDR (id "x"))) (id "b"))) = Some (T_LIVE_VAR (D_T D_T_INT) (base + 4) false 0) /\
  value (outcome objects (T_COMP_ACCESS (id "x") (id "z"))) = Some NULL /\
  let s := final_state (outcome objects (T_ASSIGN (-9) (T_COMP_ACCESS (T_DEREF (id "p")) (id "b")) (num 300))) in
  value_at s D_T_INT (base + 4) = 300 /\ value_at s D_T_CHAR base = value_at objects D_T_CHAR base.
Proof.
  eexists 4112, 4192. split; [apply reachable_after|]. split; [vm_compute; reflexivity|]. split; [vm_compute; reflexivity|].
  split; [vm_compute; reflexivity|]. split; [vm_compute; reflexivity|]. split; [vm_compute; reflexivity|]. cbv zeta.
  split; vm_compute; reflexivity.
Qed.
