(** LR parsing of the grammars of Grammar.v with an automaton given as data: a check of the automaton, and the proof that a checked
    automaton finds every derivation, so that the grammar is unambiguous.  This file is a proof device: nothing in it is code of
    the repository (the tables bison makes are not part of it). *)
From Coq Require Import ZArith NArith List String Ascii Bool Lia.
From Verif Require Import CInt Tree Lexer Grammar.
Import ListNotations.
Local Open Scope string_scope.
Local Open Scope nat_scope.
Local Open Scope list_scope.

(** * Equality of symbols *)

(** Numbers of the nonterminals. *)
Definition nt_num (a : nt) : N :=
  match a with
  | primary_expression => 0
  | postfix_expression => 1
  | argument_expression_list => 2
  | unary_expression => 3
  | cast_expression => 4
  | multiplicative_expression => 5
  | additive_expression => 6
  | shift_expression => 7
  | relational_expression => 8
  | equality_expression => 9
  | and_expression => 10
  | exclusive_or_expression => 11
  | inclusive_or_expression => 12
  | logical_and_expression => 13
  | logical_or_expression => 14
  | conditional_expression => 15
  | constant_expression => 16
  | assignment_expression => 17
  | expression => 18
  | declaration => 19
  | declaration_specifiers => 20
  | declaration_specifier => 21
  | init_declarator_list => 22
  | init_declarator => 23
  | storage_class_specifier => 24
  | type_specifier => 25
  | struct_or_union_specifier => 26
  | struct_or_union => 27
  | struct_declaration_list => 28
  | struct_declaration => 29
  | specifier_qualifier_list => 30
  | specifier_qualifier => 31
  | struct_declarator_list => 32
  | struct_declarator => 33
  | enum_specifier => 34
  | enumerator_list => 35
  | enumerator => 36
  | type_qualifier => 37
  | function_specifier => 38
  | declarator => 39
  | direct_declarator => 40
  | pointer => 41
  | type_qualifier_list => 42
  | parameter_type_list => 43
  | parameter_list => 44
  | parameter_declaration => 45
  | identifier_list => 46
  | type_name => 47
  | abstract_declarator => 48
  | direct_abstract_declarator => 49
  | initializer => 50
  | initializer_list => 51
  | designation => 52
  | designator_list => 53
  | designator => 54
  | expression_statement => 55
  | repl_statement => 56
  | repl_translation_unit => 57
  | statement => 58
  | compound_statement => 59
  | block_item_list => 60
  | block_item => 61
  | selection_statement => 62
  | iteration_statement => 63
  | jump_statement => 64
  | external_declaration => 65
  | function_definition => 66
  | declaration_list => 67
  | cscript_external_declaration => 68
  | cscript_translation_unit => 69
  end%N.
(** All nonterminals. *)
Definition all_nts : list nt :=
  [primary_expression; postfix_expression; argument_expression_list; unary_expression; cast_expression;
   multiplicative_expression; additive_expression; shift_expression; relational_expression; equality_expression;
   and_expression; exclusive_or_expression; inclusive_or_expression; logical_and_expression; logical_or_expression;
   conditional_expression; constant_expression; assignment_expression; expression; declaration; declaration_specifiers;
   declaration_specifier; init_declarator_list; init_declarator; storage_class_specifier; type_specifier;
   struct_or_union_specifier; struct_or_union; struct_declaration_list; struct_declaration; specifier_qualifier_list;
   specifier_qualifier; struct_declarator_list; struct_declarator; enum_specifier; enumerator_list; enumerator;
   type_qualifier; function_specifier; declarator; direct_declarator; pointer; type_qualifier_list; parameter_type_list;
   parameter_list; parameter_declaration; identifier_list; type_name; abstract_declarator; direct_abstract_declarator;
   initializer; initializer_list; designation; designator_list; designator; expression_statement; repl_statement;
   repl_translation_unit; statement; compound_statement; block_item_list; block_item; selection_statement;
   iteration_statement; jump_statement; external_declaration; function_definition; declaration_list;
   cscript_external_declaration; cscript_translation_unit].

Lemma nt_num_inj a b : nt_num a = nt_num b -> a = b.
Proof.
  intros H.
  assert (A : forall x, nth_error all_nts (N.to_nat (nt_num x)) = Some x) by (intros x; destruct x; reflexivity).
  pose proof (A a) as Ha; pose proof (A b) as Hb. rewrite H, Hb in Ha. injection Ha as Ha. symmetry; exact Ha.
Qed.

(** Equality of symbols. *)
Definition sym_eqb (a b : sym) : bool :=
  match a, b with
  | C c, C c' => Ascii.eqb c c'
  | K x, K y => String.eqb x y
  | NT a, NT b => N.eqb (nt_num a) (nt_num b)
  | _, _ => false
  end.

Lemma sym_eqb_eq a b : sym_eqb a b = true <-> a = b.
Proof.
  destruct a, b; simpl; split; intros H; try discriminate H; try (injection H as H).
  - apply Ascii.eqb_eq in H. congruence.
  - subst. apply Ascii.eqb_refl.
  - apply String.eqb_eq in H. congruence.
  - subst. apply String.eqb_refl.
  - apply N.eqb_eq in H. f_equal. apply nt_num_inj. exact H.
  - subst. apply N.eqb_refl.
Qed.

Fixpoint syms_eqb (a b : list sym) : bool :=
  match a, b with
  | [], [] => true
  | x :: a, y :: b => sym_eqb x y && syms_eqb a b
  | _, _ => false
  end.

Lemma syms_eqb_eq a : forall b, syms_eqb a b = true <-> a = b.
Proof.
  induction a as [|x a IH]; intros [|y b]; simpl; split; intros H; try discriminate H; try reflexivity.
  - apply andb_true_iff in H as [H1 H2]. apply sym_eqb_eq in H1. apply IH in H2. congruence.
  - injection H as -> ->. apply andb_true_iff. split; [apply sym_eqb_eq|apply IH]; reflexivity.
Qed.

(** * Numbers of symbols *)

Section Automaton.
Variable T : target.
(** The terminals in the order of their numbers. *)
Variable terminals : list sym.

Fixpoint index (s : sym) (l : list sym) (n : N) : N :=
  match l with
  | [] => 999
  | x :: l => if sym_eqb s x then n else index s l (N.succ n)
  end%N.
(** The number of a symbol; 0 is for the end of the input. *)
Definition symnum (s : sym) : N := match s with NT a => 1000 + nt_num a | _ => index s terminals 1 end%N.
(** The number of the next token. *)
Definition lanum (la : option sym) : N := match la with None => 0%N | Some s => symnum s end.

(** A state: items (production, position, set of following tokens as bits) and transitions. *)
Record lrstate := mkst { items : list (nat * nat * N); gotos : list (N * nat) }.
Variable states : list lrstate.
(** The first tokens of the nonterminals, by number, as bits. *)
Variable firsts : list N.

Definition prod (k : nat) : production := nth k (productions T) (mkprod primary_expression [] same).
Definition state (s : nat) : lrstate := nth s states (mkst [] []).
Definition goto (s : nat) (X : N) : option nat :=
  match find (fun g => N.eqb (fst g) X) (gotos (state s)) with Some (_, s') => Some s' | None => None end.

(** A complete item that allows a reduction before the token. *)
Definition completed (la : option sym) (it : nat * nat * N) : bool :=
  let '(k, d, m) := it in
  Nat.eqb d (List.length (p_rhs (prod k))) && N.testbit m (lanum la) && negb (blocked (prod k) la).

Inductive laction := Shift (s : nat) | Reduce (k : nat) | Err.
Definition laction_of (s : nat) (la : option sym) : laction :=
  match find (completed la) (items (state s)) with
  | Some (k, _, _) => Reduce k
  | None => match goto s (lanum la) with Some s' => Shift s' | None => Err end
  end.

(** * The parser *)

Definition root (d : ptree) : sym := match d with Leaf t => class t | Node p _ => NT (p_lhs p) end.
Definition stack := list (nat * ptree).
Definition top (st : stack) : nat := match st with [] => 0 | (s, _) :: _ => s end.
Definition config := (stack * list token)%type.

Definition step (c : config) : option config :=
  let (st, i) := c in
  match laction_of (top st) (next i) with
  | Shift s => match i with t :: i => Some ((s, Leaf t) :: st, i) | [] => None end
  | Reduce k =>
      let p := prod k in
      let n := List.length (p_rhs p) in
      let l := rev (map snd (firstn n st)) in
      if syms_eqb (map root l) (p_rhs p) && existsb (fun q => syms_eqb [NT (p_lhs q)] [NT (p_lhs p)]) (productions T) && (k <? List.length (productions T))
      then match goto (top (skipn n st)) (symnum (NT (p_lhs p))) with
           | Some s => Some ((s, Node p l) :: skipn n st, i)
           | None => None
           end
      else None
  | Err => None
  end.

Inductive steps : config -> config -> Prop :=
| steps_refl c : steps c c
| steps_step c c' c'' : step c = Some c' -> steps c' c'' -> steps c c''.

Fixpoint run (fuel : nat) (c : config) : config :=
  match fuel with
  | O => c
  | S fuel => match step c with Some c => run fuel c | None => c end
  end.

(** * The check *)

Definition subset (a b : N) : bool := N.eqb (N.ldiff a b) 0.
(** The tokens a symbol can start with. *)
Definition firstof (X : sym) : N :=
  match X with NT a => nth (N.to_nat (nt_num a)) firsts 0%N | _ => N.shiftl 1 (symnum X) end.
(** The tokens that can follow the symbol at position [d] of an item. *)
Definition follow (k d : nat) (m : N) : N :=
  match nth_error (p_rhs (prod k)) (S d) with Some Y => firstof Y | None => m end.

Definition indexed : list (nat * production) := combine (seq 0 (List.length (productions T))) (productions T).

Definition check_firsts : bool :=
  forallb (fun p => match p_rhs p with X :: _ => subset (firstof X) (firstof (NT (p_lhs p))) | [] => false end) (productions T).

(** The productions of the symbol after the dot are in the state. *)
Definition check_closure (s : lrstate) : bool :=
  forallb (fun it => let '(k, d, m) := it in
    match nth_error (p_rhs (prod k)) d with
    | Some (NT a) =>
        let f := follow k d m in
        forallb (fun kp => if N.eqb (nt_num (p_lhs (snd kp))) (nt_num a)
                           then existsb (fun it' => let '(k', d', m') := it' in Nat.eqb k' (fst kp) && Nat.eqb d' 0 && subset f m') (items s)
                           else true) indexed
    | _ => true
    end) (items s).
(** The transitions take the items along. *)
Definition check_goto (n : nat) (s : lrstate) : bool :=
  forallb (fun it => let '(k, d, m) := it in
    match nth_error (p_rhs (prod k)) d with
    | Some X => match goto n (symnum X) with
                | Some s' => existsb (fun it' => let '(k', d', m') := it' in Nat.eqb k' k && Nat.eqb d' (S d) && subset m m') (items (state s'))
                | None => false
                end
    | None => true
    end) (items s).
(** The effective following tokens of a complete item: without ELSE for the conditional. *)
Definition effective (k : nat) (m : N) : N :=
  if blocked (prod k) (Some (K "ELSE")) && N.ltb (symnum (K "ELSE")) 999 then N.clearbit m (symnum (K "ELSE")) else m.
(** No conflicts. *)
Definition check_conflicts (s : lrstate) : bool :=
  forallb (fun it => let '(k, d, m) := it in
    if Nat.eqb d (List.length (p_rhs (prod k)))
    then forallb (fun it' => let '(k', d', m') := it' in
           if Nat.eqb d' (List.length (p_rhs (prod k'))) && negb (Nat.eqb k k') then N.eqb (N.land (effective k m) (effective k' m')) 0 else true) (items s)
         && forallb (fun g => negb (N.testbit (effective k m) (fst g))) (gotos s)
    else true) (items s).
(** The start. *)
Definition check_start : bool :=
  forallb (fun kp => if N.eqb (nt_num (p_lhs (snd kp))) (nt_num (translation_unit T))
                     then existsb (fun it' => let '(k', d', m') := it' in Nat.eqb k' (fst kp) && Nat.eqb d' 0 && N.testbit m' 0) (items (state 0))
                     else true) indexed
  && match goto 0 (symnum (NT (translation_unit T))) with
     | Some s => match laction_of s None with Err => true | _ => false end
     | None => false
     end.

Definition check : bool :=
  check_firsts && check_start &&
  forallb (fun ns => check_closure (snd ns) && check_goto (fst ns) (snd ns) && check_conflicts (snd ns)) (combine (seq 0 (List.length states)) states).

(** * Facts *)

Hypothesis checked : check = true.

Lemma subset_bit a b n : subset a b = true -> N.testbit a n = true -> N.testbit b n = true.
Proof.
  unfold subset. intros H Ha. apply N.eqb_eq in H.
  destruct (N.testbit b n) eqn:Hb; [reflexivity|].
  assert (X : N.testbit (N.ldiff a b) n = true) by (rewrite N.ldiff_spec, Ha, Hb; reflexivity).
  rewrite H, N.bits_0 in X. discriminate X.
Qed.

Lemma ck_firsts : check_firsts = true.
Proof. unfold check in checked. apply andb_true_iff in checked as [H _]. apply andb_true_iff in H as [H _]. exact H. Qed.
Lemma ck_start : check_start = true.
Proof. unfold check in checked. apply andb_true_iff in checked as [H _]. apply andb_true_iff in H as [_ H]. exact H. Qed.

Lemma combine_seq_nth {A} (l : list A) : forall b n x, nth_error l n = Some x -> In (b + n, x) (combine (seq b (List.length l)) l).
Proof.
  induction l as [|y l IH]; intros b n x H; [destruct n; discriminate H|].
  destruct n as [|n]; simpl in *.
  - injection H as ->. left. f_equal. lia.
  - right. replace (b + S n) with (S b + n) by lia. apply IH. exact H.
Qed.

Lemma ck_state s : check_closure (state s) && check_goto s (state s) && check_conflicts (state s) = true.
Proof.
  unfold check in checked. apply andb_true_iff in checked as [_ H]. rewrite forallb_forall in H.
  unfold state. destruct (nth_error states s) as [x|] eqn:Hs.
  - specialize (H (0 + s, x) (combine_seq_nth states 0 s x Hs)). simpl in H.
    rewrite (nth_error_nth _ _ _ Hs). exact H.
  - apply nth_error_None in Hs. rewrite nth_overflow by exact Hs. reflexivity.
Qed.

Lemma prod_index p : In p (productions T) -> exists k, prod k = p /\ k < List.length (productions T) /\ In (k, p) indexed.
Proof.
  intros H. apply In_nth_error in H as [k Hk]. exists k. split; [|split].
  - unfold prod. apply nth_error_nth. exact Hk.
  - apply nth_error_Some. rewrite Hk. discriminate.
  - apply (combine_seq_nth _ 0 k p Hk).
Qed.

(** First tokens. *)
Lemma class_not_nt t a : class t <> NT a.
Proof. destruct t; discriminate. Qed.

Lemma firstof_token t : N.testbit (firstof (class t)) (symnum (class t)) = true.
Proof.
  unfold firstof. destruct (class t) eqn:H; try (exfalso; exact (class_not_nt _ _ H));
  rewrite N.shiftl_spec_high' by lia; replace (_ - _)%N with 0%N by lia; reflexivity.
Qed.

Scheme derives_ind2 := Induction for derives Sort Prop
  with derives_list_ind2 := Induction for derives_list Sort Prop.
Combined Scheme derives_mutind from derives_ind2, derives_list_ind2.

Lemma derives_first :
  (forall X i r d, derives T X i r d -> N.testbit (firstof X) (lanum (next i)) = true) /\
  (forall Xs i r l, derives_list T Xs i r l ->
     match Xs with X :: _ => N.testbit (firstof X) (lanum (next i)) = true | [] => True end).
Proof.
  apply derives_mutind.
  - intros t i. simpl next. simpl lanum. apply firstof_token.
  - intros p i r l Hp _ IH _.
    pose proof ck_firsts as H. unfold check_firsts in H. rewrite forallb_forall in H. specialize (H p Hp).
    destruct (p_rhs p) as [|X Xs]; [discriminate H|]. exact (subset_bit _ _ _ H IH).
  - intros i. exact I.
  - intros X Xs i j r d l _ IH _ _. exact IH.
Qed.

Lemma derives_root :
  (forall X i r d, derives T X i r d -> root d = X) /\
  (forall Xs i r l, derives_list T Xs i r l -> map root l = Xs).
Proof.
  apply derives_mutind; simpl; try reflexivity. intros; congruence.
Qed.

Lemma derives_list_length Xs i r l : derives_list T Xs i r l -> List.length l = List.length Xs.
Proof. intros H. apply derives_root in H. rewrite <- H, map_length. reflexivity. Qed.

(** Steps. *)
Lemma steps_trans a b c : steps a b -> steps b c -> steps a c.
Proof. intros H1 H2. induction H1; [exact H2|]. econstructor; eauto. Qed.

Lemma closure_item s k d m a p la : In (k, d, m) (items (state s)) -> nth_error (p_rhs (prod k)) d = Some (NT a) ->
  In p (productions T) -> p_lhs p = a -> N.testbit (follow k d m) la = true ->
  exists k' m', prod k' = p /\ k' < List.length (productions T) /\ In (k', 0, m') (items (state s)) /\ N.testbit m' la = true.
Proof.
  intros Hi Hn Hp Ha Hf. destruct (prod_index p Hp) as [k' [Hk [Hlt Hin]]].
  pose proof (ck_state s) as H. apply andb_true_iff in H as [H _]. apply andb_true_iff in H as [H _].
  unfold check_closure in H. rewrite forallb_forall in H. specialize (H _ Hi). cbv beta iota zeta in H. rewrite Hn in H.
  rewrite forallb_forall in H. specialize (H _ Hin). cbn [fst snd] in H. rewrite Ha, N.eqb_refl in H.
  apply existsb_exists in H as [[[k1 d1] m1] [H1 H2]].
  apply andb_true_iff in H2 as [H2 H3]. apply andb_true_iff in H2 as [H2 H4].
  apply Nat.eqb_eq in H2, H4. subst. exists k', m1. repeat split; auto. exact (subset_bit _ _ _ H3 Hf).
Qed.

Lemma goto_item s k d m X : In (k, d, m) (items (state s)) -> nth_error (p_rhs (prod k)) d = Some X ->
  exists s' m', goto s (symnum X) = Some s' /\ In (k, S d, m') (items (state s')) /\ forall la, N.testbit m la = true -> N.testbit m' la = true.
Proof.
  intros Hi Hn. pose proof (ck_state s) as H. apply andb_true_iff in H as [H _]. apply andb_true_iff in H as [_ H].
  unfold check_goto in H. rewrite forallb_forall in H. specialize (H _ Hi). cbv beta iota zeta in H. rewrite Hn in H.
  destruct (goto s (symnum X)) as [s'|] eqn:Hg; [|discriminate H].
  apply existsb_exists in H as [[[k1 d1] m1] [H1 H2]].
  apply andb_true_iff in H2 as [H2 H3]. apply andb_true_iff in H2 as [H2 H4].
  apply Nat.eqb_eq in H2, H4. subst. exists s', m1. repeat split; auto. intros la. exact (subset_bit _ _ _ H3).
Qed.

Lemma index_ge s l : forall n, (n <= index s l n \/ index s l n = 999)%N.
Proof.
  induction l as [|x l IH]; intros n; simpl; [right; reflexivity|].
  destruct (sym_eqb s x); [left; lia|]. destruct (IH (N.succ n)); [left|right]; lia.
Qed.

Lemma index_inj s s' l : forall n, (index s l n = index s' l n -> index s l n < 999 -> s = s')%N.
Proof.
  induction l as [|x l IH]; intros n; simpl; [lia|].
  destruct (sym_eqb s x) eqn:H1, (sym_eqb s' x) eqn:H2; intros H H'.
  - apply sym_eqb_eq in H1, H2. congruence.
  - pose proof (index_ge s' l (N.succ n)). lia.
  - pose proof (index_ge s l (N.succ n)). lia.
  - exact (IH _ H H').
Qed.

Lemma effective_bit k m la : N.testbit m (lanum la) = true -> blocked (prod k) la = false -> N.testbit (effective k m) (lanum la) = true.
Proof.
  intros Hm Hb. unfold effective. destruct (blocked (prod k) (Some (K "ELSE")) && _) eqn:H; [|exact Hm].
  apply andb_true_iff in H as [H H']. apply N.ltb_lt in H'.
  destruct (N.eq_dec (symnum (K "ELSE")) (lanum la)) as [E|E].
  2:{ rewrite N.clearbit_neq by exact E. exact Hm. }
  exfalso. destruct la as [[c|x|a]|]; cbn [lanum symnum] in E, H'.
  - apply index_inj in E; [discriminate E|exact H'].
  - apply index_inj in E; [|exact H']. injection E as <-. rewrite H in Hb. discriminate Hb.
  - rewrite E in H'. revert H'. generalize (nt_num a). intros n. lia.
  - pose proof (index_ge (K "ELSE") terminals 1). lia.
Qed.

Lemma completed_iff la k d m : completed la (k, d, m) = true <->
  d = List.length (p_rhs (prod k)) /\ N.testbit m (lanum la) = true /\ blocked (prod k) la = false.
Proof.
  unfold completed. rewrite !andb_true_iff, Nat.eqb_eq, negb_true_iff. tauto.
Qed.

Lemma conflicts s k d m : In (k, d, m) (items (state s)) -> d = List.length (p_rhs (prod k)) ->
  (forall k' d' m', In (k', d', m') (items (state s)) -> d' = List.length (p_rhs (prod k')) -> k <> k' ->
     N.land (effective k m) (effective k' m') = 0%N) /\
  (forall g, In g (gotos (state s)) -> N.testbit (effective k m) (fst g) = false).
Proof.
  intros Hi Hd. pose proof (ck_state s) as H. apply andb_true_iff in H as [_ H].
  unfold check_conflicts in H. rewrite forallb_forall in H. specialize (H _ Hi). cbv beta iota zeta in H.
  apply Nat.eqb_eq in Hd. rewrite Hd in H. apply andb_true_iff in H as [H1 H2]. rewrite forallb_forall in H1, H2. split.
  - intros k' d' m' Hi' Hd' Hne. specialize (H1 _ Hi'). cbv beta iota zeta in H1. apply Nat.eqb_eq in Hd'. rewrite Hd' in H1.
    apply Nat.eqb_neq in Hne. rewrite Hne in H1. simpl in H1. apply N.eqb_eq. exact H1.
  - intros g Hg. specialize (H2 _ Hg). apply negb_true_iff. exact H2.
Qed.

Lemma goto_in s X s' : goto s X = Some s' -> exists g, In g (gotos (state s)) /\ fst g = X.
Proof.
  unfold goto. destruct (find _ _) as [[x y]|] eqn:H; [|discriminate]. intros _.
  apply find_some in H as [H1 H2]. apply N.eqb_eq in H2. exists (x, y). split; assumption.
Qed.

Lemma action_shift s la s' : goto s (lanum la) = Some s' -> laction_of s la = Shift s'.
Proof.
  intros Hg. unfold laction_of. destruct (find (completed la) _) as [[[k d] m]|] eqn:H; [|rewrite Hg; reflexivity].
  exfalso. apply find_some in H as [H1 H2]. apply completed_iff in H2 as [H2 [H3 H4]].
  destruct (goto_in _ _ _ Hg) as [g [G1 G2]].
  destruct (conflicts _ _ _ _ H1 H2) as [_ Hc]. specialize (Hc g G1).
  rewrite G2, (effective_bit k m la H3 H4) in Hc. discriminate Hc.
Qed.

Lemma action_reduce s k m la : In (k, List.length (p_rhs (prod k)), m) (items (state s)) -> N.testbit m (lanum la) = true ->
  blocked (prod k) la = false -> laction_of s la = Reduce k.
Proof.
  intros Hi Hm Hb. unfold laction_of. destruct (find (completed la) _) as [[[k' d'] m']|] eqn:H.
  - apply find_some in H as [H1 H2]. apply completed_iff in H2 as [H2 [H3 H4]].
    destruct (Nat.eq_dec k k') as [->|Hne]; [reflexivity|]. exfalso.
    destruct (conflicts _ _ _ _ Hi eq_refl) as [Hc _]. specialize (Hc _ _ _ H1 H2 Hne).
    assert (X : N.testbit (N.land (effective k m) (effective k' m')) (lanum la) = true).
    { rewrite N.land_spec, (effective_bit k m la Hm Hb), (effective_bit k' m' la H3 H4). reflexivity. }
    rewrite Hc, N.bits_0 in X. discriminate X.
  - exfalso. pose proof (find_none _ _ H _ Hi) as X.
    assert (Y : completed la (k, List.length (p_rhs (prod k)), m) = true) by (apply completed_iff; auto). congruence.
Qed.

Lemma existsb_lhs p : In p (productions T) -> existsb (fun q => syms_eqb [NT (p_lhs q)] [NT (p_lhs p)]) (productions T) = true.
Proof. intros H. apply existsb_exists. exists p. split; [exact H|]. apply syms_eqb_eq. reflexivity. Qed.

(** The reduction at the end of a production. *)
Lemma step_reduce st' st i k m l s' : prod k = prod k -> k < List.length (productions T) -> In (prod k) (productions T) ->
  In (k, List.length (p_rhs (prod k)), m) (items (state (top (st' ++ st)))) ->
  N.testbit m (lanum (next i)) = true -> blocked (prod k) (next i) = false ->
  map snd st' = rev l -> map root l = p_rhs (prod k) ->
  goto (top st) (symnum (NT (p_lhs (prod k)))) = Some s' ->
  step (st' ++ st, i) = Some ((s', Node (prod k) l) :: st, i).
Proof.
  intros _ Hlt Hin Hi Hm Hb Hl Hr Hg. unfold step. rewrite (action_reduce _ k m (next i) Hi Hm Hb).
  assert (Hn : List.length (p_rhs (prod k)) = List.length st').
  { rewrite <- Hr, map_length. apply (f_equal (@List.length _)) in Hl. rewrite map_length, rev_length in Hl. congruence. }
  rewrite Hn, firstn_app, Nat.sub_diag, firstn_all, skipn_app, Nat.sub_diag, skipn_all.
  change (firstn 0 st) with (@nil (nat * ptree)). change (skipn 0 st) with st. rewrite app_nil_r, app_nil_l.
  rewrite Hl, rev_involutive, Hr.
  replace (syms_eqb (p_rhs (prod k)) (p_rhs (prod k))) with true by (symmetry; apply syms_eqb_eq; reflexivity).
  rewrite (existsb_lhs _ Hin). apply Nat.ltb_lt in Hlt. rewrite Hlt. cbn [andb]. rewrite Hg. reflexivity.
Qed.

Lemma skipn_S {A} n : forall (l : list A) X Xs, skipn n l = X :: Xs -> skipn (S n) l = Xs.
Proof.
  induction n as [|n IH]; intros [|y l] X Xs H; try discriminate H.
  - injection H as _ H. exact H.
  - exact (IH l X Xs H).
Qed.

Lemma complete :
  (forall X i r d, derives T X i r d -> forall st k n m, In (k, n, m) (items (state (top st))) -> nth_error (p_rhs (prod k)) n = Some X ->
     N.testbit (follow k n m) (lanum (next r)) = true ->
     exists s', goto (top st) (symnum X) = Some s' /\ steps (st, i) ((s', d) :: st, r)) /\
  (forall Xs i r l, derives_list T Xs i r l -> forall st k n m, In (k, n, m) (items (state (top st))) -> skipn n (p_rhs (prod k)) = Xs ->
     N.testbit m (lanum (next r)) = true ->
     exists st' m', steps (st, i) (st' ++ st, r) /\ map snd st' = rev l /\
       In (k, n + List.length Xs, m') (items (state (top (st' ++ st)))) /\ N.testbit m' (lanum (next r)) = true).
Proof.
  apply derives_mutind.
  - intros t i st k n m Hi Hn Hf. destruct (goto_item _ _ _ _ _ Hi Hn) as [s' [m' [Hg _]]].
    exists s'. split; [exact Hg|]. eapply steps_step; [|apply steps_refl].
    unfold step. rewrite (action_shift (top st) (next (t :: i)) s' Hg). reflexivity.
  - intros p i r l Hp Hl IH Hb st k n m Hi Hn Hf.
    destruct (closure_item _ _ _ _ _ p _ Hi Hn Hp eq_refl Hf) as [k' [m' [Hk [Hlt [Hi' Hm']]]]].
    destruct (goto_item _ _ _ _ _ Hi Hn) as [s' [m1 [Hg _]]].
    assert (Hs : skipn 0 (p_rhs (prod k')) = p_rhs p) by (rewrite Hk; reflexivity).
    destruct (IH st k' 0 m' Hi' Hs Hm') as [st' [m2 [S1 [S2 [S3 S4]]]]].
    exists s'. split; [exact Hg|]. eapply steps_trans; [exact S1|]. eapply steps_step; [|apply steps_refl].
    pose proof (proj2 derives_root _ _ _ _ Hl) as Hr.
    rewrite <- Hk in Hp, Hb, Hr, S3, Hg |- *. rewrite Nat.add_0_l in S3.
    exact (step_reduce st' st r k' m2 l s' eq_refl Hlt Hp S3 S4 Hb S2 Hr Hg).
  - intros i st k n m Hi Hs Hm. exists [], m. repeat split; auto. apply steps_refl.
    rewrite Nat.add_0_r. exact Hi.
  - intros X Xs i j r d l Hd IH1 Hl IH2 st k n m Hi Hs Hm.
    assert (Hn : nth_error (p_rhs (prod k)) n = Some X).
    { rewrite <- (firstn_skipn n (p_rhs (prod k))), Hs. rewrite nth_error_app2; rewrite firstn_length.
      - rewrite min_l; [rewrite Nat.sub_diag; reflexivity|].
        destruct (le_lt_dec n (List.length (p_rhs (prod k)))); [assumption|].
        rewrite skipn_all2 in Hs by lia. discriminate Hs.
      - lia. }
    assert (Hs' : skipn (S n) (p_rhs (prod k)) = Xs).
    { exact (skipn_S _ _ _ _ Hs). }
    assert (Hf : N.testbit (follow k n m) (lanum (next j)) = true).
    { unfold follow. destruct Xs as [|Y Xs].
      - inversion Hl; subst. replace (nth_error (p_rhs (prod k)) (S n)) with (@None sym); [exact Hm|].
        symmetry. apply nth_error_None. apply (f_equal (@List.length _)) in Hs'. rewrite skipn_length in Hs'. simpl in Hs'. lia.
      - replace (nth_error (p_rhs (prod k)) (S n)) with (Some Y); [exact (proj2 derives_first _ _ _ _ Hl)|].
        rewrite <- (firstn_skipn (S n) (p_rhs (prod k))), Hs'. rewrite nth_error_app2; rewrite firstn_length; [|lia].
        rewrite min_l; [rewrite Nat.sub_diag; reflexivity|].
        destruct (le_lt_dec (S n) (List.length (p_rhs (prod k)))); [assumption|].
        rewrite skipn_all2 in Hs' by lia. discriminate Hs'. }
    destruct (IH1 st k n m Hi Hn Hf) as [s' [Hg S1]].
    destruct (goto_item _ _ _ _ _ Hi Hn) as [s2 [m2 [Hg2 [Hi2 Hm2]]]]. rewrite Hg in Hg2. injection Hg2 as <-.
    destruct (IH2 ((s', d) :: st) k (S n) m2 Hi2 Hs' (Hm2 _ Hm)) as [st' [m' [S2 [E [Hi3 Hm3]]]]].
    exists (st' ++ [(s', d)]), m'. rewrite <- app_assoc. cbn [app]. repeat split.
    + eapply steps_trans; [exact S1|exact S2].
    + rewrite map_app, E. reflexivity.
    + replace (n + List.length (X :: Xs)) with (S n + List.length Xs) by (simpl; lia). exact Hi3.
    + exact Hm3.
Qed.

(** * Whole inputs *)

Definition accept_state : option nat := goto 0 (symnum (NT (translation_unit T))).

Lemma parse_steps w d : derives T (NT (translation_unit T)) w [] d ->
  exists s, accept_state = Some s /\ steps ([], w) ([(s, d)], []) /\ step ([(s, d)], []) = None.
Proof.
  intros H. inversion H as [t i E|p i r l Hp Hl Hb E]; subst; [exfalso; exact (class_not_nt _ _ E)|].
  pose proof ck_start as Hc. unfold check_start in Hc. apply andb_true_iff in Hc as [Hc Ha]. rewrite forallb_forall in Hc.
  destruct (prod_index p Hp) as [k [Hk [Hlt Hin]]]. specialize (Hc _ Hin). cbn [fst snd] in Hc.
  match goal with X : p_lhs p = _ |- _ => rewrite X in Hc; rename X into El end. rewrite N.eqb_refl in Hc.
  apply existsb_exists in Hc as [[[k1 d1] m1] [H1 H2]]. apply andb_true_iff in H2 as [H2 H3]. apply andb_true_iff in H2 as [H2 H4].
  apply Nat.eqb_eq in H2, H4. subst k1 d1.
  unfold accept_state. destruct (goto 0 (symnum (NT (translation_unit T)))) as [s|] eqn:Hg; [|discriminate Ha].
  exists s. split; [reflexivity|].
  assert (Hs : skipn 0 (p_rhs (prod k)) = p_rhs p) by (rewrite Hk; reflexivity).
  destruct (proj2 complete _ _ _ _ Hl [] k 0 m1 H1 Hs H3) as [st' [m2 [S1 [S2 [S3 S4]]]]].
  pose proof (proj2 derives_root _ _ _ _ Hl) as Hr.
  split.
  - eapply steps_trans; [exact S1|]. eapply steps_step; [|apply steps_refl].
    rewrite <- Hk in Hp, Hb, Hr, S3, El |- *. rewrite Nat.add_0_l in S3. rewrite <- El in Hg.
    exact (step_reduce st' [] [] k m2 l s eq_refl Hlt Hp S3 S4 Hb S2 Hr Hg).
  - unfold step. cbn [top next]. destruct (laction_of s None); [discriminate Ha|discriminate Ha|reflexivity].
Qed.

Lemma steps_det c a b : steps c a -> steps c b -> step a = None -> step b = None -> a = b.
Proof.
  intros H. revert b. induction H as [c|c c' c'' H1 H2 IH]; intros b Hb Ha Hb'.
  - inversion Hb; subst; [reflexivity|congruence].
  - inversion Hb; subst; [congruence|]. apply IH; auto. congruence.
Qed.

(** Every input has at most one derivation. *)
Theorem unambiguous w d d' : derives T (NT (translation_unit T)) w [] d -> derives T (NT (translation_unit T)) w [] d' -> d = d'.
Proof.
  intros H H'. destruct (parse_steps w d H) as [s [A1 [A2 A3]]]. destruct (parse_steps w d' H') as [s' [B1 [B2 B3]]].
  pose proof (steps_det _ _ _ A2 B2 A3 B3) as E. injection E as _ E. exact E.
Qed.

Lemma run_steps n : forall c, steps c (run n c).
Proof.
  induction n as [|n IH]; intros c; simpl; [apply steps_refl|].
  destruct (step c) as [c'|] eqn:H; [|apply steps_refl]. eapply steps_step; [exact H|apply IH].
Qed.

(** An input on which the parser stops elsewhere has none. *)
Theorem rejected n w d : step (run n ([], w)) = None -> snd (run n ([], w)) <> [] \/ (List.length (fst (run n ([], w))) <> 1)%nat ->
  ~ derives T (NT (translation_unit T)) w [] d.
Proof.
  intros H1 H2 H. destruct (parse_steps w d H) as [s [A1 [A2 A3]]].
  pose proof (steps_det _ _ _ A2 (run_steps n ([], w)) A3 H1) as E. rewrite <- E in H2. simpl in H2. destruct H2; congruence.
Qed.

(** * Soundness *)

Lemma derives_list_app Xs Ys i j r l l' : derives_list T Xs i j l -> derives_list T Ys j r l' -> derives_list T (Xs ++ Ys) i r (l ++ l').
Proof. intros H H'. induction H; [exact H'|]. simpl. econstructor; eauto. Qed.

Lemma derives_list_split l l' : forall Xs i r, derives_list T Xs i r (l ++ l') ->
  exists j, derives_list T (firstn (List.length l) Xs) i j l /\ derives_list T (skipn (List.length l) Xs) j r l'.
Proof.
  induction l as [|d l IH]; intros Xs i r H; simpl in *.
  - exists i. split; [constructor|exact H].
  - inversion H as [|X Xs' i' j r' d' l0 H1 H2]; subst. destruct (IH _ _ _ H2) as [j' [H3 H4]]. exists j'. simpl. split; [econstructor; eauto|exact H4].
Qed.

(** The trees on the stack derive the part of the input that has been read. *)
Definition sound_config (w : list token) (c : config) : Prop :=
  let l := rev (map snd (fst c)) in derives_list T (map root l) w (snd c) l.

Lemma step_sound w c c' : sound_config w c -> step c = Some c' -> sound_config w c'.
Proof.
  destruct c as [st i]. unfold sound_config, step. cbn [fst snd]. intros H.
  destruct (laction_of (top st) (next i)) as [s|k|] eqn:Ha; [|  |discriminate].
  - destruct i as [|t i]; [discriminate|]. intros E. injection E as <-. cbn [fst snd map rev].
    rewrite map_app. eapply derives_list_app; [exact H|]. simpl. econstructor; constructor.
  - destruct (syms_eqb _ _ && _ && _) eqn:Hc; [|discriminate]. apply andb_true_iff in Hc as [Hc Hlt]. apply andb_true_iff in Hc as [Hc _].
    apply syms_eqb_eq in Hc. apply Nat.ltb_lt in Hlt.
    set (n := List.length (p_rhs (prod k))) in *. destruct (goto _ _) as [s|]; [|discriminate]. intros E. injection E as <-.
    cbn [fst snd map rev]. rewrite <- (firstn_skipn n st) in H. rewrite map_app, rev_app_distr in H.
    rewrite map_app in H. destruct (derives_list_split _ _ _ _ _ H) as [j [H1 H2]].
    rewrite <- (map_length root (rev (map snd (skipn n st)))) in H1, H2.
    rewrite firstn_app, Nat.sub_diag, firstn_all in H1. simpl firstn in H1. rewrite app_nil_r in H1.
    rewrite skipn_app, Nat.sub_diag, skipn_all in H2. simpl skipn in H2. rewrite app_nil_l in H2.
    rewrite map_app. eapply derives_list_app; [exact H1|]. simpl.
    econstructor; [|constructor]. apply derives_node.
    + unfold prod. apply nth_In. exact Hlt.
    + rewrite <- Hc. exact H2.
    + unfold laction_of in Ha. destruct (find (completed (next i)) _) as [[[k' d'] m']|] eqn:Hf.
      * apply find_some in Hf as [_ Hf]. apply completed_iff in Hf. injection Ha as ->. apply Hf.
      * destruct (goto _ _); discriminate Ha.
Qed.

Lemma run_sound w n : forall c, sound_config w c -> sound_config w (run n c).
Proof.
  induction n as [|n IH]; intros c H; simpl; [exact H|]. destruct (step c) eqn:E; [|exact H]. apply IH. exact (step_sound _ _ _ H E).
Qed.

(** The derivation found by the parser. *)
Definition parse (n : nat) (w : list token) : option ptree :=
  match run n ([], w) with
  | ([(_, d)], []) => if sym_eqb (root d) (NT (translation_unit T)) then Some d else None
  | _ => None
  end.

Theorem parse_sound n w d : parse n w = Some d -> derives T (NT (translation_unit T)) w [] d.
Proof.
  unfold parse. intros H.
  assert (S0 : sound_config w ([], w)) by (unfold sound_config; simpl; constructor).
  pose proof (run_sound w n _ S0) as S1. destruct (run n ([], w)) as [[|[s d'] [|? ?]] [|? ?]]; try discriminate H.
  destruct (sym_eqb (root d') _) eqn:E; [|discriminate H]. injection H as ->. apply sym_eqb_eq in E.
  unfold sound_config in S1. simpl in S1. rewrite E in S1. inversion S1 as [|X Xs i j r dd ll H1 H2]; subst. inversion H2; subst. exact H1.
Qed.

End Automaton.
