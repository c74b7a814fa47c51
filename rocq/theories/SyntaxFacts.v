(** The derivations of the programs of SpecSyntax.v. *)
From Coq Require Import ZArith List String Ascii Bool Lia.
From Verif Require Import CInt Tree Lexer Grammar LR GrammarTables ParserFacts SpecSyntax.
Import ListNotations.
Local Open Scope string_scope.
Local Open Scope nat_scope.
Local Open Scope list_scope.

Scheme cexp_ind2 := Induction for cexp Sort Prop with cexps_ind2 := Induction for cexps Sort Prop.
Combined Scheme cexp_mutind from cexp_ind2, cexps_ind2.

(** The nonterminal of a level. *)
Definition nt_of (k : nat) : nt :=
  match k with
  | 0 => assignment_expression | 1 => conditional_expression | 2 => logical_or_expression | 3 => logical_and_expression
  | 4 => inclusive_or_expression | 5 => exclusive_or_expression | 6 => and_expression | 7 => equality_expression
  | 8 => relational_expression | 9 => shift_expression | 10 => additive_expression | 11 => multiplicative_expression
  | 12 => cast_expression | 13 => unary_expression | 14 => postfix_expression | _ => primary_expression
  end.

Lemma look_chain T k : k < 15 -> look T (nt_of k) [NT (nt_of (S k))] = Some (mkprod (nt_of k) [NT (nt_of (S k))] same).
Proof. intros H. do 15 (destruct k as [|k]; [reflexivity|]). lia. Qed.

Lemma not_blocked a rhs act la : nt_num a <> nt_num selection_statement -> blocked (mkprod a rhs act) la = false.
Proof. unfold blocked. simpl. destruct a; try reflexivity. intros H. exfalso. apply H. reflexivity. Qed.

Lemma rd_one T a X act i r n v m : look T a [X] = Some (mkprod a [X] act) -> (forall la, blocked (mkprod a [X] act) la = false) ->
  rd T X i r n v m -> forall v' m', act (fun i => nth (pred i) [v] VNone) m = (v', m') -> rd T (NT a) i r n v' m'.
Proof. intros H Hb R v' m' Ha. eapply rd_node; [exact H|apply Hb|eapply rdl_nt; [exact R|apply rdl_nil]|exact Ha]. Qed.

Lemma rd_down1 T k i r n v m : k < 15 -> rd T (NT (nt_of (S k))) i r n v m -> rd T (NT (nt_of k)) i r n v m.
Proof.
  intros Hk R. eapply rd_one; [exact (look_chain T k Hk)| |exact R|reflexivity].
  intros la. apply not_blocked. do 15 (destruct k as [|k]; [discriminate|]). discriminate.
Qed.

Lemma rd_down T l k i r n v m : k <= l -> l <= 15 -> rd T (NT (nt_of l)) i r n v m -> rd T (NT (nt_of k)) i r n v m.
Proof.
  intros H H'. induction l as [|l IH] in H, H' |- *; intros R; [replace k with 0 by lia; exact R|].
  destruct (Nat.eq_dec k (S l)) as [->|Hne]; [exact R|]. apply IH; [lia|lia|]. apply rd_down1; [lia|exact R].
Qed.

Lemma level_max e : level e <= 15.
Proof. destruct e as [| | | | | | | | | | | |o ?| |  |o ? ?| |]; simpl; try lia. destruct o as [[]|[]| |]; simpl; lia. Qed.

Ltac open_lets :=
  repeat match goal with
  | H : (let (_, _) := ?x in _) = _ |- _ => let E := fresh "E" in destruct x as [? ?] eqn:E
  | H : (_, _) = (_, _) |- _ => injection H as; subst
  | H : _ /\ _ |- _ => destruct H
  end.
Ltac norm := repeat (rewrite <- app_assoc || rewrite <- app_comm_cons); cbn [app].
Ltac rule T a rhs := eapply (rd_node T a rhs); [reflexivity|reflexivity| |].
(** The symbols of a right hand side: tokens, and nonterminals by hypotheses. *)
Ltac tok t := apply (rdl_tok _ t).
Ltac fin := apply rdl_nil.

(** Names of types. *)
Lemma base_rd T b : forall r n t m, base_tree b n = (t, m) -> rd T (NT type_specifier) (base_text b ++ r) r n (VTree t) m.
Proof.
  intros r n t m H. destruct b as [| | | | | | | | | |x|c x|x]; try destruct c; simpl in H; injection H as <- <-.
  - rule T type_specifier [K "VOID"]. tok (KW "VOID"). fin. all: reflexivity.
  - rule T type_specifier [K "CHAR"]. tok (KW "CHAR"). fin. all: reflexivity.
  - rule T type_specifier [K "SHORT"]. tok (KW "SHORT"). fin. all: reflexivity.
  - rule T type_specifier [K "INT"]. tok (KW "INT"). fin. all: reflexivity.
  - rule T type_specifier [K "LONG"]. tok (KW "LONG"). fin. all: reflexivity.
  - rule T type_specifier [K "FLOAT"]. tok (KW "FLOAT"). fin. all: reflexivity.
  - rule T type_specifier [K "DOUBLE"]. tok (KW "DOUBLE"). fin. all: reflexivity.
  - rule T type_specifier [K "SIGNED"]. tok (KW "SIGNED"). fin. all: reflexivity.
  - rule T type_specifier [K "UNSIGNED"]. tok (KW "UNSIGNED"). fin. all: reflexivity.
  - rule T type_specifier [K "BOOL"]. tok (KW "BOOL"). fin. all: reflexivity.
  - rule T type_specifier [K "TYPE_NAME"]. tok (TYPE_NAME x). fin. all: reflexivity.
  - rule T type_specifier [NT struct_or_union_specifier]. eapply rdl_nt; [|fin].
    rule T struct_or_union_specifier [NT struct_or_union; K "IDENTIFIER"].
    eapply rdl_nt; [|tok (IDENTIFIER x); fin]. rule T struct_or_union [K "STRUCT"]. tok (KW "STRUCT"). fin. all: reflexivity.
  - rule T type_specifier [NT struct_or_union_specifier]. eapply rdl_nt; [|fin].
    rule T struct_or_union_specifier [NT struct_or_union; K "IDENTIFIER"].
    eapply rdl_nt; [|tok (IDENTIFIER x); fin]. rule T struct_or_union [K "UNION"]. tok (KW "UNION"). fin. all: reflexivity.
  - rule T type_specifier [NT enum_specifier]. eapply rdl_nt; [|fin].
    rule T enum_specifier [K "ENUM"; K "IDENTIFIER"]. tok (KW "ENUM"). tok (IDENTIFIER x). fin. all: reflexivity.
Qed.

Lemma base_trees_app l : forall l' n, base_trees (l ++ l') n =
  let (ts, m) := base_trees l n in let (ts', m') := base_trees l' m in (ts ++ ts', m').
Proof.
  induction l as [|b l IH]; intros l' n; simpl; [destruct (base_trees l' n); reflexivity|].
  destruct (base_tree b n) as [t m]. rewrite IH. destruct (base_trees l m) as [ts m1]. destruct (base_trees l' m1). reflexivity.
Qed.

Lemma base_sq T b r n t m : base_tree b n = (t, m) -> rd T (NT specifier_qualifier) (base_text b ++ r) r n (VTree t) m.
Proof. intros H. rule T specifier_qualifier [NT type_specifier]. eapply rdl_nt; [apply base_rd; exact H|fin]. reflexivity. Qed.

Lemma bases_rd T b l : forall r n ts m, base_trees (b :: l) n = (ts, m) ->
  rd T (NT specifier_qualifier_list) (base_text b ++ List.concat (map base_text l) ++ r) r n (VTree (CHAIN_HEAD ts)) m.
Proof.
  induction l as [|x l IH] using rev_ind; intros r n ts m H.
  - simpl in H. open_lets. cbn [map List.concat app]. rule T specifier_qualifier_list [NT specifier_qualifier].
    eapply rdl_nt; [apply base_sq; eassumption|fin]. all: reflexivity.
  - change (b :: l ++ [x]) with ((b :: l) ++ [x]) in H. rewrite base_trees_app in H. destruct (base_trees (b :: l) n) as [us k] eqn:E.
    cbn [base_trees] in H. open_lets. rewrite map_app, concat_app. cbn [map List.concat]. rewrite app_nil_r. norm.
    rule T specifier_qualifier_list [NT specifier_qualifier_list; NT specifier_qualifier].
    eapply rdl_nt; [apply IH; eassumption|]. eapply rdl_nt; [apply base_sq; eassumption|fin]. all: reflexivity.
Qed.

Lemma stars_rd T k : forall r n, rd T (NT pointer) (stars (S k) ++ r) r n (VTree (pointers (S k) NULL)) n.
Proof.
  induction k as [|k IH]; intros r n.
  - rule T pointer [C "*"]. tok (p "*"). fin. all: reflexivity.
  - change (stars (S (S k)) ++ r) with (p "*" :: stars (S k) ++ r). rule T pointer [C "*"; NT pointer]. tok (p "*").
    eapply rdl_nt; [apply IH|fin]. all: reflexivity.
Qed.

Lemma type_rd T ty : forall r n t m, type_tree ty n = (t, m) -> rd T (NT Grammar.type_name) (type_text ty ++ r) r n (VTree t) m.
Proof.
  intros r n t m H. unfold type_tree in H. open_lets. unfold type_text. norm.
  destruct (ty_stars ty) as [|k].
  - rule T Grammar.type_name [NT specifier_qualifier_list]. eapply rdl_nt; [apply bases_rd; eassumption|fin]. all: reflexivity.
  - rule T Grammar.type_name [NT specifier_qualifier_list; NT abstract_declarator].
    eapply rdl_nt; [apply bases_rd; eassumption|]. eapply rdl_nt; [|fin].
    rule T abstract_declarator [NT pointer]. eapply rdl_nt; [apply stars_rd|fin]. all: reflexivity.
Qed.

(** Expressions. *)
Lemma look_infix T o : look T (nt_of (prec o)) [NT (nt_of (prec o)); class (infix_text o); NT (nt_of (S (prec o)))] =
  Some (mkprod (nt_of (prec o)) [NT (nt_of (prec o)); class (infix_text o); NT (nt_of (S (prec o)))] (node (fun v => infix_tree o (v 1) (v 3)))).
Proof. destruct o as [[]|[]| |]; reflexivity. Qed.
Lemma look_prefix T o : look T unary_expression [class (prefix_text o); NT unary_expression] =
  Some (mkprod unary_expression [class (prefix_text o); NT unary_expression] (node (fun v => prefix_tree o (v 2)))).
Proof. destruct o; reflexivity. Qed.
Lemma look_assign T o : look T assignment_expression [NT unary_expression; class (assign_text o); NT assignment_expression] =
  Some (mkprod assignment_expression [NT unary_expression; class (assign_text o); NT assignment_expression]
         (lnode (fun v l => T_ASSIGN l (v 1) (assigned o (v 1) (v 3))))).
Proof. destruct o; reflexivity. Qed.

Lemma exp_rd T :
  (forall e, fits e -> forall r n t m, etree e n = (t, m) -> rd T (NT (nt_of (level e))) (text e ++ r) r n (VTree t) m) /\
  (forall es, fits_all es -> forall r n ts m, etrees es n = (ts, m) ->
     rd T (NT expression) (texts es ++ r) r n (VTree (T_EXPR_LIST (CHAIN_HEAD ts))) m /\
     rd T (NT argument_expression_list) (texts es ++ r) r n (VTree (CHAIN_HEAD ts)) m).
Proof.
  assert (D : forall e k, (forall r n t m, etree e n = (t, m) -> rd T (NT (nt_of (level e))) (text e ++ r) r n (VTree t) m) -> k <= level e ->
              forall r n t m, etree e n = (t, m) -> rd T (NT (nt_of k)) (text e ++ r) r n (VTree t) m).
  { intros e k H Hk r n t m E. eapply rd_down; [exact Hk|apply level_max|apply H; exact E]. }
  apply cexp_mutind.
  - intros z _ r n t m H. simpl in H. open_lets. rule T primary_expression [K "INTEGER"]. tok (INTEGER z). fin. all: reflexivity.
  - intros x _ r n t m H. simpl in H. open_lets. rule T primary_expression [K "FLOAT_CST"]. tok (FLOAT_CST x). fin. all: reflexivity.
  - intros x _ r n t m H. simpl in H. open_lets. rule T primary_expression [K "CONST_STRING"]. tok (CONST_STRING x). fin. all: reflexivity.
  - intros x _ r n t m H. simpl in H. open_lets. rule T primary_expression [K "IDENTIFIER"]. tok (IDENTIFIER x). fin. all: reflexivity.
  - intros es IH F r n t m H. simpl in H, F. open_lets. cbn [text]. norm. rule T primary_expression [C "("; NT expression; C ")"].
    tok (p "("). eapply rdl_nt; [apply (IH F); eassumption|]. tok (p ")"). fin. all: reflexivity.
  - intros f IH F r n t m H. simpl in H, F. open_lets. cbn [text]. norm. rule T postfix_expression [NT postfix_expression; C "("; C ")"].
    eapply rdl_nt; [apply (D f 14); eauto|]. tok (p "("). tok (p ")"). fin. all: reflexivity.
  - intros f IH es IHes F r n t m H. simpl in H, F. open_lets. cbn [text]. norm.
    rule T postfix_expression [NT postfix_expression; C "("; NT argument_expression_list; C ")"].
    eapply rdl_nt; [apply (D f 14); eauto|]. tok (p "("). eapply rdl_nt; [apply IHes; eassumption|]. tok (p ")"). fin. all: reflexivity.
  - intros f IH es IHes F r n t m H. simpl in H, F. open_lets. cbn [text]. norm.
    rule T postfix_expression [NT postfix_expression; C "["; NT expression; C "]"].
    eapply rdl_nt; [apply (D f 14); eauto|]. tok (p "["). eapply rdl_nt; [apply IHes; eassumption|]. tok (p "]"). fin. all: reflexivity.
  - intros f IH F r n t m H. simpl in H, F. open_lets. cbn [text]. norm. rule T postfix_expression [NT postfix_expression; K "INC"].
    eapply rdl_nt; [apply (D f 14); eauto|]. tok (KW "INC"). fin. all: reflexivity.
  - intros f IH F r n t m H. simpl in H, F. open_lets. cbn [text]. norm. rule T postfix_expression [NT postfix_expression; K "DEC"].
    eapply rdl_nt; [apply (D f 14); eauto|]. tok (KW "DEC"). fin. all: reflexivity.
  - intros f IH x F r n t m H. simpl in H, F. open_lets. cbn [text]. norm. rule T postfix_expression [NT postfix_expression; C "."; K "IDENTIFIER"].
    eapply rdl_nt; [apply (D f 14); eauto|]. tok (p "."). tok (IDENTIFIER x). fin. all: reflexivity.
  - intros f IH x F r n t m H. simpl in H, F. open_lets. cbn [text]. norm.
    rule T postfix_expression [NT postfix_expression; K "PTR_ACCESS"; K "IDENTIFIER"].
    eapply rdl_nt; [apply (D f 14); eauto|]. tok (KW "PTR_ACCESS"). tok (IDENTIFIER x). fin. all: reflexivity.
  - intros o a IH F r n t m H. simpl in H, F. open_lets. cbn [text]. norm. cbn [level nt_of].
    eapply rd_node; [exact (look_prefix T o)|reflexivity| |]. tok (prefix_text o).
    eapply rdl_nt; [apply (D a 13); eauto|]. fin. all: reflexivity.
  - intros ty _ r n t m H. simpl in H. open_lets. cbn [text]. norm. rule T unary_expression [K "SIZEOF"; C "("; NT Grammar.type_name; C ")"].
    tok (KW "SIZEOF"). tok (p "("). eapply rdl_nt; [apply type_rd; eassumption|]. tok (p ")"). fin. all: reflexivity.
  - intros ty a IH F r n t m H. simpl in H, F. open_lets. cbn [text]. norm.
    rule T cast_expression [C "("; NT Grammar.type_name; C ")"; NT cast_expression].
    tok (p "("). eapply rdl_nt; [apply type_rd; eassumption|]. tok (p ")"). eapply rdl_nt; [apply (D a 12); eauto|]. fin. all: reflexivity.
  - intros o a IHa b IHb F r n t m H. simpl in H, F. open_lets. cbn [text]. norm. cbn [level].
    eapply rd_node; [exact (look_infix T o)| | |].
    { apply not_blocked. destruct o as [[]|[]| |]; discriminate. }
    eapply rdl_nt; [apply (D a (prec o)); eauto|]. tok (infix_text o).
    eapply rdl_nt; [apply (D b (S (prec o))); eauto|]. fin. all: reflexivity.
  - intros a IHa es IHes c IHc F r n t m H. simpl in H, F. open_lets. cbn [text]. norm.
    rule T conditional_expression [NT logical_or_expression; C "?"; NT expression; C ":"; NT conditional_expression].
    eapply rdl_nt; [apply (D a 2); eauto|]. tok (p "?"). eapply rdl_nt; [apply IHes; eassumption|]. tok (p ":").
    eapply rdl_nt; [apply (D c 1); eauto|]. fin. all: reflexivity.
  - intros o a IHa b IHb F r n t m H. simpl in H, F. open_lets. cbn [text]. norm. cbn [level nt_of].
    eapply rd_node; [exact (look_assign T o)|reflexivity| |].
    eapply rdl_nt; [apply (D a 13); eauto|]. tok (assign_text o).
    eapply rdl_nt; [apply (D b 0); eauto; lia|]. fin. all: reflexivity.
  - intros e IH F r n ts m H. simpl in H, F. open_lets. cbn [texts]. split.
    + rule T expression [NT assignment_expression]. eapply rdl_nt; [apply (D e 0); eauto; lia|fin]. all: reflexivity.
    + rule T argument_expression_list [NT assignment_expression]. eapply rdl_nt; [apply (D e 0); eauto; lia|fin]. all: reflexivity.
  - intros es IHes e IH F r n ts m H. simpl in H, F. open_lets. cbn [texts]. norm. split.
    + rule T expression [NT expression; C ","; NT assignment_expression].
      eapply rdl_nt; [apply IHes; eassumption|]. tok (p ","). eapply rdl_nt; [apply (D e 0); eauto; lia|fin]. all: reflexivity.
    + rule T argument_expression_list [NT argument_expression_list; C ","; NT assignment_expression].
      eapply rdl_nt; [apply IHes; eassumption|]. tok (p ","). eapply rdl_nt; [apply (D e 0); eauto; lia|fin]. all: reflexivity.
Qed.

Lemma exp_at T e k : fits e -> k <= level e -> forall r n t m, etree e n = (t, m) -> rd T (NT (nt_of k)) (text e ++ r) r n (VTree t) m.
Proof. intros F Hk r n t m E. eapply rd_down; [exact Hk|apply level_max|apply (proj1 (exp_rd T)); assumption]. Qed.
Lemma exps_rd T es : fits_all es -> forall r n t m, elist es n = (t, m) -> rd T (NT expression) (texts es ++ r) r n (VTree t) m.
Proof. intros F r n t m H. unfold elist in H. open_lets. apply (proj2 (exp_rd T)); assumption. Qed.

(** * Declarations *)

Lemma enum_rd T x v : match v with Some e => 1 <= level e /\ fits e | None => True end ->
  forall r n t m, enum_tree x v n = (t, m) -> rd T (NT enumerator) (enum_text x v ++ r) r n (VTree t) m.
Proof.
  destruct v as [e|]; simpl; intros F r n t m H; open_lets.
  - unfold enum_text. norm. rule T enumerator [K "IDENTIFIER"; C "="; NT constant_expression]. tok (IDENTIFIER x). tok (p "=").
    eapply rdl_nt; [|fin]. rule T constant_expression [NT conditional_expression].
    eapply rdl_nt; [apply (exp_at T e 1); eassumption|fin]. all: reflexivity.
  - rule T enumerator [K "IDENTIFIER"]. tok (IDENTIFIER x). fin. reflexivity.
Qed.

Lemma enums_rd T es : enums_fit es -> forall r n ts m, enums_tree es n = (ts, m) ->
  rd T (NT enumerator_list) (enums_text es ++ r) r n (VTree (CHAIN_HEAD ts)) m.
Proof.
  induction es as [x v|es IH x v]; simpl; intros F r n ts m H; open_lets.
  - rule T enumerator_list [NT enumerator]. eapply rdl_nt; [apply enum_rd; eassumption|fin]. reflexivity.
  - norm. rule T enumerator_list [NT enumerator_list; C ","; NT enumerator]. eapply rdl_nt; [apply IH; eassumption|].
    tok (p ","). eapply rdl_nt; [apply enum_rd; eassumption|fin]. reflexivity.
Qed.

Lemma fill_pointers k t : fill (pointers (S k) NULL) t = pointers (S k) t.
Proof. induction k as [|k IH]; [reflexivity|]. change (pointers (S (S k)) NULL) with (T_POINTER (pointers (S k) NULL)). cbn [fill].
  change (pointers (S k) NULL) with (T_POINTER (pointers k NULL)) in IH |- *. cbn [fill] in *. rewrite IH. reflexivity. Qed.

Scheme cspec_ind2 := Induction for cspec Sort Prop with cspecs_ind2 := Induction for cspecs Sort Prop
  with cmembers_ind2 := Induction for cmembers Sort Prop with cmember_ind2 := Induction for cmember Sort Prop
  with cdeclrs_ind2 := Induction for cdeclrs Sort Prop with cfield_ind2 := Induction for cfield Sort Prop
  with cdeclr_ind2 := Induction for cdeclr Sort Prop with cdirect_ind2 := Induction for cdirect Sort Prop
  with cparams_ind2 := Induction for cparams Sort Prop with cparam_ind2 := Induction for cparam Sort Prop
  with cabs_ind2 := Induction for cabs Sort Prop.
Combined Scheme cspec_mutind from cspec_ind2, cspecs_ind2, cmembers_ind2, cmember_ind2, cdeclrs_ind2, cfield_ind2, cdeclr_ind2, cdirect_ind2, cparams_ind2, cparam_ind2, cabs_ind2.

Lemma const_rd T e : 1 <= level e -> fits e -> forall r n t m, etree e n = (t, m) -> rd T (NT constant_expression) (text e ++ r) r n (VTree t) m.
Proof.
  intros L F r n t m H. rule T constant_expression [NT conditional_expression]. eapply rdl_nt; [apply (exp_at T e 1); eassumption|fin]. reflexivity.
Qed.
Lemma names_rd T x l : forall r n, rd T (NT identifier_list) (names_text x l ++ r) r n (VTree (CHAIN_HEAD (map ident (x :: l)))) n.
Proof.
  unfold names_text. induction l as [|y l IH] using rev_ind; intros r n.
  - cbn [flat_map app map]. rule T identifier_list [K "IDENTIFIER"]. tok (IDENTIFIER x). fin. reflexivity.
  - rewrite flat_map_app. cbn [flat_map]. norm. rule T identifier_list [NT identifier_list; C ","; K "IDENTIFIER"].
    eapply rdl_nt; [exact (IH (p "," :: IDENTIFIER y :: r) n)|]. tok (p ","). tok (IDENTIFIER y). fin.
    cbn [map]. rewrite map_app. reflexivity.
Qed.
Lemma abs_declr T k i r n t m : rd T (NT direct_abstract_declarator) i r n (VTree t) m -> rd T (NT abstract_declarator) (stars k ++ i) r n (VTree (pointers k t)) m.
Proof.
  intros R. destruct k as [|k].
  - rule T abstract_declarator [NT direct_abstract_declarator]. eapply rdl_nt; [exact R|fin]. reflexivity.
  - rule T abstract_declarator [NT pointer; NT direct_abstract_declarator]. eapply rdl_nt; [apply stars_rd|]. eapply rdl_nt; [exact R|fin].
    match goal with |- _ = (VTree (pointers _ ?u), ?x) => transitivity (VTree (fill (pointers (S k) NULL) u), x) end;
      [reflexivity|rewrite fill_pointers; reflexivity].
Qed.
Lemma dots_rd T ps v : (forall r n ts m, params_tree ps n = (ts, m) -> rd T (NT parameter_list) (params_text ps ++ r) r n (VTree (CHAIN_HEAD ts)) m) ->
  forall r n ts m, params_tree ps n = (ts, m) -> rd T (NT parameter_type_list) (params_text ps ++ dots_text v ++ r) r n (VTree (CHAIN_HEAD (ts ++ dots v))) m.
Proof.
  intros IH r n ts m H. destruct v; cbn [dots_text app].
  - rule T parameter_type_list [NT parameter_list; C ","; K "ELLIPSIS"].
    eapply rdl_nt; [apply IH; eassumption|]. tok (p ","). tok (KW "ELLIPSIS"). fin. reflexivity.
  - rule T parameter_type_list [NT parameter_list]. eapply rdl_nt; [apply IH; eassumption|fin]. unfold dots. rewrite app_nil_r. reflexivity.
Qed.

Lemma store_rd T s r n : rd T (NT storage_class_specifier) (store_text s :: r) r n (VTree (store_tree s)) n.
Proof.
  destruct s; [rule T storage_class_specifier [K "TYPEDEF"]|rule T storage_class_specifier [K "EXTERN"]|rule T storage_class_specifier [K "STATIC"]
    |rule T storage_class_specifier [K "AUTO"]|rule T storage_class_specifier [K "REGISTER"]].
  tok (KW "TYPEDEF"); fin. 2: (tok (KW "EXTERN"); fin). 3: (tok (KW "STATIC"); fin). 4: (tok (KW "AUTO"); fin). 5: (tok (KW "REGISTER"); fin).
  all: reflexivity.
Qed.

Lemma ds_type T i r n v m : rd T (NT type_specifier) i r n v m -> rd T (NT declaration_specifier) i r n v m.
Proof. intros R. rule T declaration_specifier [NT type_specifier]. eapply rdl_nt; [exact R|fin]. reflexivity. Qed.
Lemma sq_type T i r n v m : rd T (NT type_specifier) i r n v m -> rd T (NT specifier_qualifier) i r n v m.
Proof. intros R. rule T specifier_qualifier [NT type_specifier]. eapply rdl_nt; [exact R|fin]. reflexivity. Qed.

Lemma specs_chain (ts : list tree) t : tree_chain t (CHAIN_HEAD ts) = CHAIN_HEAD (ts ++ [t]).
Proof. reflexivity. Qed.

Lemma tag_rd T c r n : rd T (NT struct_or_union) (tag_text c :: r) r n (VComp c) n.
Proof.
  destruct c; [rule T struct_or_union [K "STRUCT"]; [tok (KW "STRUCT"); fin|]|rule T struct_or_union [K "UNION"]; [tok (KW "UNION"); fin|]]; reflexivity.
Qed.

Lemma decl_parts T :
  (forall s, spec_fits s -> forall r n t m, spec_tree s n = (t, m) ->
     rd T (NT declaration_specifier) (spec_text s ++ r) r n (VTree t) m /\
     (plain_spec s -> rd T (NT specifier_qualifier) (spec_text s ++ r) r n (VTree t) m)) /\
  (forall ss, specs_fit ss -> forall r n ts m, specs_tree ss n = (ts, m) ->
     rd T (NT declaration_specifiers) (specs_text ss ++ r) r n (VTree (CHAIN_HEAD ts)) m /\
     (plain_specs ss -> rd T (NT specifier_qualifier_list) (specs_text ss ++ r) r n (VTree (CHAIN_HEAD ts)) m)) /\
  (forall ms, members_fit ms -> forall r n ts m, members_tree ms n = (ts, m) ->
     rd T (NT struct_declaration_list) (members_text ms ++ r) r n (VTree (CHAIN_HEAD ts)) m) /\
  (forall q, member_fits q -> forall r n t m, member_tree q n = (t, m) -> rd T (NT struct_declaration) (member_text q ++ r) r n (VTree t) m) /\
  (forall ds, declrs_fit ds -> forall r n ts m, declrs_tree ds n = (ts, m) ->
     rd T (NT struct_declarator_list) (declrs_text ds ++ r) r n (VTree (CHAIN_HEAD ts)) m) /\
  (forall d, field_fits d -> forall r n t m, field_tree d n = (t, m) -> rd T (NT struct_declarator) (field_text d ++ r) r n (VTree t) m) /\
  (forall d, declr_fits d -> forall r n t m, declr_tree d n = (t, m) -> rd T (NT declarator) (declr_text d ++ r) r n (VTree t) m) /\
  (forall d, direct_fits d -> forall r n t m, direct_tree d n = (t, m) -> rd T (NT direct_declarator) (direct_text d ++ r) r n (VTree t) m) /\
  (forall ps, params_fit ps -> forall r n ts m, params_tree ps n = (ts, m) ->
     rd T (NT parameter_list) (params_text ps ++ r) r n (VTree (CHAIN_HEAD ts)) m) /\
  (forall q, param_fits q -> forall r n t m, param_tree q n = (t, m) -> rd T (NT parameter_declaration) (param_text q ++ r) r n (VTree t) m) /\
  (forall a, abs_fits a -> forall r n t m, abs_tree a n = (t, m) -> rd T (NT direct_abstract_declarator) (abs_text a ++ r) r n (VTree t) m).
Proof.
  apply cspec_mutind.
  - intros s _ r n t m H. simpl in H. open_lets. split; [|intros []]. cbn [spec_text app].
    rule T declaration_specifier [NT storage_class_specifier]. eapply rdl_nt; [apply store_rd|fin]. reflexivity.
  - intros b _ r n t m H. simpl in H. cbn [spec_text]. split; intros; [apply ds_type|apply sq_type]; apply base_rd; exact H.
  - intros c x ms IH F r n t m H. simpl in H, F. open_lets.
    assert (R : rd T (NT type_specifier) (spec_text (SDef c x ms) ++ r) r n (VTree (T_DECL_COMPOUND z c (opt_ident x) (CHAIN_HEAD l))) (z + 1)%Z).
    { cbn [spec_text]. norm. destruct x as [x|]; cbn [opt_text app].
      - rule T type_specifier [NT struct_or_union_specifier]. eapply rdl_nt; [|fin].
        rule T struct_or_union_specifier [NT struct_or_union; K "IDENTIFIER"; C "{"; NT struct_declaration_list; C "}"].
        eapply rdl_nt; [apply tag_rd|]. tok (IDENTIFIER x). tok (p "{"). eapply rdl_nt; [apply IH; eassumption|]. tok (p "}"). fin. all: reflexivity.
      - rule T type_specifier [NT struct_or_union_specifier]. eapply rdl_nt; [|fin].
        rule T struct_or_union_specifier [NT struct_or_union; C "{"; NT struct_declaration_list; C "}"].
        eapply rdl_nt; [apply tag_rd|]. tok (p "{"). eapply rdl_nt; [apply IH; eassumption|]. tok (p "}"). fin. all: reflexivity. }
    split; intros; [apply ds_type|apply sq_type]; exact R.
  - intros x es c F r n t m H. simpl in H, F. open_lets.
    assert (R : rd T (NT type_specifier) (spec_text (SEnum x es c) ++ r) r n (VTree (T_ENUMERATOR (opt_ident x) (CHAIN_HEAD l))) m).
    { cbn [spec_text]. norm. destruct x as [x|], c; cbn [opt_text comma_text app].
      - rule T type_specifier [NT enum_specifier]. eapply rdl_nt; [|fin].
        rule T enum_specifier [K "ENUM"; K "IDENTIFIER"; C "{"; NT enumerator_list; C ","; C "}"].
        tok (KW "ENUM"). tok (IDENTIFIER x). tok (p "{"). eapply rdl_nt; [apply enums_rd; eassumption|]. tok (p ","). tok (p "}"). fin. all: reflexivity.
      - rule T type_specifier [NT enum_specifier]. eapply rdl_nt; [|fin].
        rule T enum_specifier [K "ENUM"; K "IDENTIFIER"; C "{"; NT enumerator_list; C "}"].
        tok (KW "ENUM"). tok (IDENTIFIER x). tok (p "{"). eapply rdl_nt; [apply enums_rd; eassumption|]. tok (p "}"). fin. all: reflexivity.
      - rule T type_specifier [NT enum_specifier]. eapply rdl_nt; [|fin].
        rule T enum_specifier [K "ENUM"; C "{"; NT enumerator_list; C ","; C "}"].
        tok (KW "ENUM"). tok (p "{"). eapply rdl_nt; [apply enums_rd; eassumption|]. tok (p ","). tok (p "}"). fin. all: reflexivity.
      - rule T type_specifier [NT enum_specifier]. eapply rdl_nt; [|fin].
        rule T enum_specifier [K "ENUM"; C "{"; NT enumerator_list; C "}"].
        tok (KW "ENUM"). tok (p "{"). eapply rdl_nt; [apply enums_rd; eassumption|]. tok (p "}"). fin. all: reflexivity. }
    split; intros; [apply ds_type|apply sq_type]; exact R.
  - intros s IH F r n ts m H. simpl in H, F. open_lets. cbn [specs_text]. destruct (IH F r n t m E) as [R1 R2]. split.
    + rule T declaration_specifiers [NT declaration_specifier]. eapply rdl_nt; [exact R1|fin]. reflexivity.
    + intros P. rule T specifier_qualifier_list [NT specifier_qualifier]. eapply rdl_nt; [exact (R2 P)|fin]. reflexivity.
  - intros ss IHs s IH F r n ts m H. simpl in H, F. open_lets. cbn [specs_text]. norm.
    match goal with A : specs_fit ss, B : spec_fits s, E1 : specs_tree ss n = _, E2 : spec_tree s _ = _ |- _ =>
      destruct (IHs A (spec_text s ++ r) _ _ _ E1) as [Q1 Q2]; destruct (IH B r _ _ _ E2) as [R1 R2] end. split.
    + rule T declaration_specifiers [NT declaration_specifiers; NT declaration_specifier].
      eapply rdl_nt; [exact Q1|]. eapply rdl_nt; [exact R1|fin]. reflexivity.
    + intros [P1 P2]. rule T specifier_qualifier_list [NT specifier_qualifier_list; NT specifier_qualifier].
      eapply rdl_nt; [exact (Q2 P1)|]. eapply rdl_nt; [exact (R2 P2)|fin]. reflexivity.
  - intros q IH F r n ts m H. simpl in H, F. open_lets. cbn [members_text].
    rule T struct_declaration_list [NT struct_declaration]. eapply rdl_nt; [apply IH; eassumption|fin]. reflexivity.
  - intros ms IHm q IH F r n ts m H. simpl in H, F. open_lets. cbn [members_text]. norm.
    rule T struct_declaration_list [NT struct_declaration_list; NT struct_declaration]. eapply rdl_nt; [apply IHm; eassumption|].
    eapply rdl_nt; [apply IH; eassumption|fin]. reflexivity.
  - intros ss IHs ds IHd F r n ts m H. simpl in H, F. open_lets. cbn [member_text]. norm.
    rule T struct_declaration [NT specifier_qualifier_list; NT struct_declarator_list; C ";"].
    eapply rdl_nt; [eapply IHs; eassumption|]. eapply rdl_nt; [apply IHd; eassumption|]. tok (p ";"). fin. all: reflexivity.
  - intros ss IHs F r n ts m H. simpl in H, F. open_lets. cbn [member_text]. norm.
    rule T struct_declaration [NT specifier_qualifier_list; C ";"].
    eapply rdl_nt; [eapply IHs; eassumption|]. tok (p ";"). fin. all: reflexivity.
  - intros d IH F r n ts m H. simpl in H, F. open_lets. cbn [declrs_text].
    rule T struct_declarator_list [NT struct_declarator]. eapply rdl_nt; [apply IH; eassumption|fin]. reflexivity.
  - intros ds IHd d IH F r n ts m H. simpl in H, F. open_lets. cbn [declrs_text]. norm.
    rule T struct_declarator_list [NT struct_declarator_list; C ","; NT struct_declarator].
    eapply rdl_nt; [apply IHd; eassumption|]. tok (p ","). eapply rdl_nt; [apply IH; eassumption|fin]. reflexivity.
  - intros d IH F r n ts m H. simpl in H, F. cbn [field_text].
    rule T struct_declarator [NT declarator]. eapply rdl_nt; [apply IH; eassumption|fin]. all: reflexivity.
  - intros d IH e F r n ts m H. simpl in H, F. open_lets. cbn [field_text]. norm.
    rule T struct_declarator [NT declarator; C ":"; NT constant_expression]. eapply rdl_nt; [apply IH; eassumption|]. tok (p ":").
    eapply rdl_nt; [apply const_rd; eassumption|fin]. reflexivity.
  - intros e F r n ts m H. simpl in H, F. open_lets. cbn [field_text]. norm.
    rule T struct_declarator [C ":"; NT constant_expression]. tok (p ":"). eapply rdl_nt; [apply const_rd; eassumption|fin]. reflexivity.
  - intros k d IH F r n t m H. simpl in H, F. open_lets. cbn [declr_text]. norm. destruct k as [|k].
    + rule T declarator [NT direct_declarator]. eapply rdl_nt; [apply IH; eassumption|fin]. all: reflexivity.
    + rule T declarator [NT pointer; NT direct_declarator]. eapply rdl_nt; [apply stars_rd|]. eapply rdl_nt; [apply IH; eassumption|fin].
      match goal with |- _ = (VTree (pointers _ ?u), ?x) => transitivity (VTree (fill (pointers (S k) NULL) u), x) end;
        [reflexivity|rewrite fill_pointers; reflexivity].
  - intros x _ r n t m H. simpl in H. open_lets. rule T direct_declarator [K "IDENTIFIER"]. tok (IDENTIFIER x). fin. reflexivity.
  - intros d IH F r n t m H. simpl in H, F. cbn [direct_text]. norm. rule T direct_declarator [C "("; NT declarator; C ")"].
    tok (p "("). eapply rdl_nt; [apply IH; eassumption|]. tok (p ")"). fin. reflexivity.
  - intros d IH e F r n t m H. simpl in H, F. open_lets. cbn [direct_text]. norm.
    rule T direct_declarator [NT direct_declarator; C "["; NT assignment_expression; C "]"].
    eapply rdl_nt; [apply IH; eassumption|]. tok (p "["). eapply rdl_nt; [apply (exp_at T e 0); [assumption|lia|eassumption]|]. tok (p "]"). fin. reflexivity.
  - intros d IH F r n t m H. simpl in H, F. open_lets. cbn [direct_text]. norm.
    rule T direct_declarator [NT direct_declarator; C "["; C "]"].
    eapply rdl_nt; [apply IH; eassumption|]. tok (p "["). tok (p "]"). fin. reflexivity.
  - intros d IH F r n t m H. simpl in H, F. open_lets. cbn [direct_text]. norm.
    rule T direct_declarator [NT direct_declarator; C "["; C "*"; C "]"].
    eapply rdl_nt; [apply IH; eassumption|]. tok (p "["). tok (p "*"). tok (p "]"). fin. reflexivity.
  - intros d IH F r n t m H. simpl in H, F. open_lets. cbn [direct_text]. norm.
    rule T direct_declarator [NT direct_declarator; C "("; C ")"].
    eapply rdl_nt; [apply IH; eassumption|]. tok (p "("). tok (p ")"). fin. reflexivity.
  - intros d IH ps IHp v F r n t m H. simpl in H, F. open_lets. cbn [direct_text]. norm.
    rule T direct_declarator [NT direct_declarator; C "("; NT parameter_type_list; C ")"].
    eapply rdl_nt; [apply IH; eassumption|]. tok (p "("). eapply rdl_nt; [apply dots_rd; [apply IHp; assumption|eassumption]|]. tok (p ")"). fin. reflexivity.
  - intros d IH x l F r n t m H. simpl in H, F. open_lets. cbn [direct_text]. norm.
    rule T direct_declarator [NT direct_declarator; C "("; NT identifier_list; C ")"].
    eapply rdl_nt; [apply IH; eassumption|]. tok (p "("). eapply rdl_nt; [apply names_rd|]. tok (p ")"). fin. reflexivity.
  - intros q IH F r n ts m H. simpl in H, F. open_lets. cbn [params_text].
    rule T parameter_list [NT parameter_declaration]. eapply rdl_nt; [apply IH; eassumption|fin]. reflexivity.
  - intros ps IHp q IH F r n ts m H. simpl in H, F. open_lets. cbn [params_text]. norm.
    rule T parameter_list [NT parameter_list; C ","; NT parameter_declaration]. eapply rdl_nt; [apply IHp; eassumption|].
    tok (p ","). eapply rdl_nt; [apply IH; eassumption|fin]. reflexivity.
  - intros ss IHs d IH F r n t m H. simpl in H, F. open_lets. cbn [param_text]. norm.
    rule T parameter_declaration [NT declaration_specifiers; NT declarator]. eapply rdl_nt; [eapply IHs; eassumption|].
    eapply rdl_nt; [apply IH; eassumption|fin]. reflexivity.
  - intros ss IHs k F r n t m H. simpl in H, F. open_lets. cbn [param_text]. norm. destruct k as [|k].
    + rule T parameter_declaration [NT declaration_specifiers]. eapply rdl_nt; [eapply IHs; eassumption|fin]. reflexivity.
    + rule T parameter_declaration [NT declaration_specifiers; NT abstract_declarator]. eapply rdl_nt; [eapply IHs; eassumption|].
      eapply rdl_nt; [|fin]. rule T abstract_declarator [NT pointer]. eapply rdl_nt; [apply stars_rd|fin]. all: reflexivity.
  - intros ss IHs k a IH F r n t m H. simpl in H, F. open_lets. cbn [param_text]. norm.
    rule T parameter_declaration [NT declaration_specifiers; NT abstract_declarator]. eapply rdl_nt; [eapply IHs; eassumption|].
    eapply rdl_nt; [apply abs_declr; apply IH; eassumption|fin]. reflexivity.
  - intros k _ r n t m H. cbn [abs_tree] in H. injection H as <- <-. cbn [abs_text]. norm.
    rule T direct_abstract_declarator [C "("; NT abstract_declarator; C ")"]. tok (p "(").
    eapply rdl_nt; [rule T abstract_declarator [NT pointer]; [eapply rdl_nt; [apply stars_rd|fin]|reflexivity]|]. tok (p ")"). fin. reflexivity.
  - intros k a IH F r n t m H. simpl in H, F. open_lets. cbn [abs_text]. norm.
    rule T direct_abstract_declarator [C "("; NT abstract_declarator; C ")"]. tok (p "(").
    eapply rdl_nt; [apply abs_declr; apply IH; eassumption|]. tok (p ")"). fin. reflexivity.
  - intros _ r n t m H. simpl in H. open_lets. cbn [abs_text app]. rule T direct_abstract_declarator [C "["; C "]"]. tok (p "["). tok (p "]"). fin. reflexivity.
  - intros e F r n t m H. simpl in H, F. open_lets. cbn [abs_text]. norm.
    rule T direct_abstract_declarator [C "["; NT assignment_expression; C "]"].
    tok (p "["). eapply rdl_nt; [apply (exp_at T e 0); [assumption|lia|eassumption]|]. tok (p "]"). fin. reflexivity.
  - intros _ r n t m H. simpl in H. open_lets. cbn [abs_text app]. rule T direct_abstract_declarator [C "["; C "*"; C "]"].
    tok (p "["). tok (p "*"). tok (p "]"). fin. reflexivity.
  - intros a IH F r n t m H. simpl in H, F. open_lets. cbn [abs_text]. norm. rule T direct_abstract_declarator [NT direct_abstract_declarator; C "["; C "]"].
    eapply rdl_nt; [apply IH; eassumption|]. tok (p "["). tok (p "]"). fin. reflexivity.
  - intros a IH e F r n t m H. simpl in H, F. open_lets. cbn [abs_text]. norm.
    rule T direct_abstract_declarator [NT direct_abstract_declarator; C "["; NT assignment_expression; C "]"].
    eapply rdl_nt; [apply IH; eassumption|]. tok (p "["). eapply rdl_nt; [apply (exp_at T e 0); [assumption|lia|eassumption]|]. tok (p "]"). fin. reflexivity.
  - intros a IH F r n t m H. simpl in H, F. open_lets. cbn [abs_text]. norm. rule T direct_abstract_declarator [NT direct_abstract_declarator; C "["; C "*"; C "]"].
    eapply rdl_nt; [apply IH; eassumption|]. tok (p "["). tok (p "*"). tok (p "]"). fin. reflexivity.
  - intros _ r n t m H. simpl in H. open_lets. cbn [abs_text app]. rule T direct_abstract_declarator [C "("; C ")"]. tok (p "("). tok (p ")"). fin. reflexivity.
  - intros ps IHp v F r n t m H. simpl in H, F. open_lets. cbn [abs_text]. norm.
    rule T direct_abstract_declarator [C "("; NT parameter_type_list; C ")"].
    tok (p "("). eapply rdl_nt; [apply dots_rd; [apply IHp; assumption|eassumption]|]. tok (p ")"). fin. reflexivity.
  - intros a IH F r n t m H. simpl in H, F. open_lets. cbn [abs_text]. norm. rule T direct_abstract_declarator [NT direct_abstract_declarator; C "("; C ")"].
    eapply rdl_nt; [apply IH; eassumption|]. tok (p "("). tok (p ")"). fin. reflexivity.
  - intros a IH ps IHp v F r n t m H. simpl in H, F. open_lets. cbn [abs_text]. norm.
    rule T direct_abstract_declarator [NT direct_abstract_declarator; C "("; NT parameter_type_list; C ")"].
    eapply rdl_nt; [apply IH; eassumption|]. tok (p "("). eapply rdl_nt; [apply dots_rd; [apply IHp; assumption|eassumption]|]. tok (p ")"). fin. reflexivity.
Qed.

Lemma specs_rd T ss : specs_fit ss -> forall r n ts m, specs_tree ss n = (ts, m) ->
  rd T (NT declaration_specifiers) (specs_text ss ++ r) r n (VTree (CHAIN_HEAD ts)) m.
Proof. intros F r n ts m H. exact (proj1 (proj1 (proj2 (decl_parts T)) ss F r n ts m H)). Qed.
Lemma declr_rd T d : declr_fits d -> forall r n t m, declr_tree d n = (t, m) -> rd T (NT declarator) (declr_text d ++ r) r n (VTree t) m.
Proof. exact (proj1 (proj2 (proj2 (proj2 (proj2 (proj2 (proj2 (decl_parts T))))))) d). Qed.

Scheme cinit_ind2 := Induction for cinit Sort Prop with cinits_ind2 := Induction for cinits Sort Prop.
Combined Scheme cinit_mutind from cinit_ind2, cinits_ind2.

Lemma desig_rd T d : desig_fits d -> forall r n t m, desig_tree d n = (t, m) -> rd T (NT designator) (desig_text d ++ r) r n (VTree t) m.
Proof.
  destruct d as [e|x]; simpl; intros F r n t m H; open_lets; norm.
  - rule T designator [C "["; NT constant_expression; C "]"]. tok (p "["). eapply rdl_nt; [apply const_rd; eassumption|]. tok (p "]"). fin. reflexivity.
  - rule T designator [C "."; K "IDENTIFIER"]. tok (p "."). tok (IDENTIFIER x). fin. reflexivity.
Qed.
Lemma desig_list_rd T ds : desigs_fit ds -> forall r n ts m, desigs_tree ds n = (ts, m) ->
  rd T (NT designator_list) (desigs_text ds ++ r) r n (VTree (CHAIN_HEAD ts)) m.
Proof.
  induction ds as [d|ds IH d]; simpl; intros F r n ts m H; open_lets; norm.
  - rule T designator_list [NT designator]. eapply rdl_nt; [apply desig_rd; eassumption|fin]. reflexivity.
  - rule T designator_list [NT designator_list; NT designator]. eapply rdl_nt; [apply IH; eassumption|]. eapply rdl_nt; [apply desig_rd; eassumption|fin]. reflexivity.
Qed.
Lemma desigs_rd T ds : desigs_fit ds -> forall r n ts m, desigs_tree ds n = (ts, m) ->
  rd T (NT designation) (desigs_text ds ++ p "=" :: r) r n (VTree (T_ASSIGN m (CHAIN_HEAD ts) NULL)) (m + 1)%Z.
Proof.
  intros F r n ts m H. rule T designation [NT designator_list; C "="]. eapply rdl_nt; [apply desig_list_rd; eassumption|]. tok (p "="). fin. reflexivity.
Qed.

Lemma init_rd T :
  (forall i, init_fits i -> forall r n t m, init_tree i n = (t, m) -> rd T (NT initializer) (init_text i ++ r) r n (VTree t) m) /\
  (forall is, inits_fit is -> forall r n ts m, inits_tree is n = (ts, m) ->
     rd T (NT initializer_list) (inits_text is ++ r) r n (VTree (CHAIN_HEAD ts)) m).
Proof.
  apply cinit_mutind.
  - intros e F r n t m H. simpl in H, F. cbn [init_text]. rule T initializer [NT assignment_expression].
    eapply rdl_nt; [apply (exp_at T e 0); [assumption|lia|eassumption]|fin]. reflexivity.
  - intros is IH c F r n t m H. simpl in H, F. open_lets. cbn [init_text]. norm. destruct c; cbn [comma_text app].
    + rule T initializer [C "{"; NT initializer_list; C ","; C "}"].
      tok (p "{"). eapply rdl_nt; [apply IH; eassumption|]. tok (p ","). tok (p "}"). fin. reflexivity.
    + rule T initializer [C "{"; NT initializer_list; C "}"].
      tok (p "{"). eapply rdl_nt; [apply IH; eassumption|]. tok (p "}"). fin. reflexivity.
  - intros [ds|] i IH [F G] r n t m H; simpl in H, F; open_lets; cbn [inits_text opt_desigs_text]; norm.
    + rule T initializer_list [NT designation; NT initializer]. eapply rdl_nt; [apply desigs_rd; eassumption|].
      eapply rdl_nt; [apply IH; eassumption|fin]. reflexivity.
    + rule T initializer_list [NT initializer]. eapply rdl_nt; [apply IH; eassumption|fin]. reflexivity.
  - intros is IHs [ds|] i IH (Fs & F & G) r n t m H; simpl in H, F; open_lets; cbn [inits_text opt_desigs_text]; norm.
    + rule T initializer_list [NT initializer_list; C ","; NT designation; NT initializer].
      eapply rdl_nt; [apply IHs; eassumption|]. tok (p ","). eapply rdl_nt; [apply desigs_rd; eassumption|].
      eapply rdl_nt; [apply IH; eassumption|fin]. reflexivity.
    + rule T initializer_list [NT initializer_list; C ","; NT initializer].
      eapply rdl_nt; [apply IHs; eassumption|]. tok (p ","). eapply rdl_nt; [apply IH; eassumption|fin]. reflexivity.
Qed.

Lemma idecl_rd T d i : idecl_fits d i -> forall r n t m, idecl_tree d i n = (t, m) ->
  rd T (NT init_declarator) (idecl_text d i ++ r) r n (VTree t) m.
Proof.
  intros [F G] r n t m H. unfold idecl_tree in H. unfold idecl_text. open_lets. destruct i as [i|]; open_lets; norm.
  - rule T init_declarator [NT declarator; C "="; NT initializer]. eapply rdl_nt; [apply declr_rd; eassumption|]. tok (p "=").
    eapply rdl_nt; [apply (proj1 (init_rd T)); eassumption|fin]. reflexivity.
  - rule T init_declarator [NT declarator]. eapply rdl_nt; [apply declr_rd; eassumption|fin]. reflexivity.
Qed.

Lemma idecls_rd T ds : idecls_fit ds -> forall r n ts m, idecls_tree ds n = (ts, m) ->
  rd T (NT init_declarator_list) (idecls_text ds ++ r) r n (VTree (CHAIN_HEAD ts)) m.
Proof.
  induction ds as [d i|ds IH d i]; simpl; intros F r n ts m H; open_lets.
  - rule T init_declarator_list [NT init_declarator]. eapply rdl_nt; [apply idecl_rd; eassumption|fin]. reflexivity.
  - norm. rule T init_declarator_list [NT init_declarator_list; C ","; NT init_declarator]. eapply rdl_nt; [apply IH; eassumption|].
    tok (p ","). eapply rdl_nt; [apply idecl_rd; eassumption|fin]. reflexivity.
Qed.

Lemma decl_rd T d : decl_fits d -> forall r n t m, decl_tree d n = (t, m) -> rd T (NT declaration) (decl_text d ++ r) r n (VTree t) m.
Proof.
  destruct d as [ss|ss ds]; simpl; intros F r n t m H; open_lets; norm.
  - rule T declaration [NT declaration_specifiers; C ";"]. eapply rdl_nt; [apply specs_rd; eassumption|]. tok (p ";"). fin. reflexivity.
  - rule T declaration [NT declaration_specifiers; NT init_declarator_list; C ";"]. eapply rdl_nt; [apply specs_rd; eassumption|].
    eapply rdl_nt; [apply idecls_rd; eassumption|]. tok (p ";"). fin. reflexivity.
Qed.

(** * Statements *)

Lemma blocked_else q la : blocked q la = true -> la = Some (K "ELSE").
Proof.
  unfold blocked. intros H.
  repeat match type of H with (match ?x with _ => _ end) = true => destruct x; try discriminate H end; reflexivity.
Qed.
Lemma unblocked q la : la <> Some (K "ELSE") -> blocked q la = false.
Proof. intros H. destruct (blocked q la) eqn:E; [|reflexivity]. exfalso. exact (H (blocked_else _ _ E)). Qed.

Scheme cstmt_ind2 := Induction for cstmt Sort Prop with citem_ind2 := Induction for citem Sort Prop with citems_ind2 := Induction for citems Sort Prop.
Combined Scheme cstmt_mutind from cstmt_ind2, citem_ind2, citems_ind2.

Lemma opt_stmt_rd T es : opt_fits es -> forall r n t m, opt_stmt es n = (t, m) ->
  rd T (NT expression_statement) (opt_texts es ++ p ";" :: r) r n (VTree t) m.
Proof.
  destruct es as [es|]; simpl; intros F r n t m H.
  - rule T expression_statement [NT expression; C ";"]. eapply rdl_nt; [apply exps_rd; eassumption|]. tok (p ";"). fin. reflexivity.
  - open_lets. rule T expression_statement [C ";"]. tok (p ";"). fin. reflexivity.
Qed.

Lemma st_exp i r n v m : rd CSCRIPT_T (NT expression_statement) i r n v m -> rd CSCRIPT_T (NT statement) i r n v m.
Proof. intros R. rule CSCRIPT_T statement [NT expression_statement]. eapply rdl_nt; [exact R|fin]. reflexivity. Qed.
Lemma st_comp i r n v m : rd CSCRIPT_T (NT compound_statement) i r n v m -> rd CSCRIPT_T (NT statement) i r n v m.
Proof. intros R. rule CSCRIPT_T statement [NT compound_statement]. eapply rdl_nt; [exact R|fin]. reflexivity. Qed.
Lemma st_sel i r n v m : rd CSCRIPT_T (NT selection_statement) i r n v m -> rd CSCRIPT_T (NT statement) i r n v m.
Proof. intros R. rule CSCRIPT_T statement [NT selection_statement]. eapply rdl_nt; [exact R|fin]. reflexivity. Qed.
Lemma st_iter i r n v m : rd CSCRIPT_T (NT iteration_statement) i r n v m -> rd CSCRIPT_T (NT statement) i r n v m.
Proof. intros R. rule CSCRIPT_T statement [NT iteration_statement]. eapply rdl_nt; [exact R|fin]. reflexivity. Qed.
Lemma st_jump i r n v m : rd CSCRIPT_T (NT jump_statement) i r n v m -> rd CSCRIPT_T (NT statement) i r n v m.
Proof. intros R. rule CSCRIPT_T statement [NT jump_statement]. eapply rdl_nt; [exact R|fin]. reflexivity. Qed.

Definition may_follow (s : cstmt) (r : list token) : Prop := open s = true -> next r <> Some (K "ELSE").

Lemma block_rd is : (forall r n ts m, items_tree is n = (ts, m) -> rd CSCRIPT_T (NT block_item_list) (items_text is ++ r) r n (VTree (CHAIN_HEAD ts)) m) ->
  forall r n ts m, items_tree is n = (ts, m) -> rd CSCRIPT_T (NT compound_statement) (p "{" :: items_text is ++ p "}" :: r) r n (VTree (CHAIN_HEAD ts)) m.
Proof.
  intros IH r n ts m H. rule CSCRIPT_T compound_statement [C "{"; NT block_item_list; C "}"]. tok (p "{").
  eapply rdl_nt; [apply IH; eassumption|]. tok (p "}"). fin. reflexivity.
Qed.
Lemma block0_rd r n : rd CSCRIPT_T (NT compound_statement) (p "{" :: p "}" :: r) r n (VTree T_EMPTY) n.
Proof. rule CSCRIPT_T compound_statement [C "{"; C "}"]. tok (p "{"). tok (p "}"). fin. reflexivity. Qed.

(** Nothing that starts a statement or declaration is an else. *)
Lemma no_else a i r n v m : N.testbit (firstof cscript_terminals cscript_firsts (NT a)) (symnum cscript_terminals (K "ELSE")) = false ->
  rd CSCRIPT_T (NT a) i r n v m -> next i <> Some (K "ELSE").
Proof.
  intros H [d [Hd _]] Hn. pose proof (proj1 (derives_first CSCRIPT_T _ _ _ cscript_checked) _ _ _ _ Hd) as B.
  rewrite Hn in B. cbn [lanum] in B. congruence.
Qed.

Lemma stmt_parts :
  (forall s, stmt_fits s -> forall r n t m, may_follow s r -> stmt_tree s n = (t, m) -> rd CSCRIPT_T (NT statement) (stmt_text s ++ r) r n (VTree t) m) /\
  (forall i, item_fits i -> forall r n t m, (match i with IStmt s => may_follow s r | _ => True end) -> item_tree i n = (t, m) ->
     rd CSCRIPT_T (NT block_item) (item_text i ++ r) r n (VTree t) m) /\
  (forall is, items_fit is -> forall r n ts m, next r <> Some (K "ELSE") -> items_tree is n = (ts, m) ->
     rd CSCRIPT_T (NT block_item_list) (items_text is ++ r) r n (VTree (CHAIN_HEAD ts)) m).
Proof.
  apply cstmt_mutind.
  - intros _ r n t m _ H. simpl in H. open_lets. cbn [stmt_text app]. apply st_exp.
    rule CSCRIPT_T expression_statement [C ";"]. tok (p ";"). fin. reflexivity.
  - intros es F r n t m _ H. simpl in H, F. cbn [stmt_text]. norm. apply st_exp.
    rule CSCRIPT_T expression_statement [NT expression; C ";"]. eapply rdl_nt; [apply exps_rd; eassumption|]. tok (p ";"). fin. reflexivity.
  - intros _ r n t m _ H. simpl in H. open_lets. cbn [stmt_text app]. apply st_comp. apply block0_rd.
  - intros is IH F r n t m _ H. simpl in H, F. open_lets. cbn [stmt_text]. norm. apply st_comp.
    rule CSCRIPT_T compound_statement [C "{"; NT block_item_list; C "}"]. tok (p "{").
    eapply rdl_nt; [apply IH; try eassumption; discriminate|]. tok (p "}"). fin. reflexivity.
  - intros es s IH F r n t m Hf H. simpl in H, F. open_lets. cbn [stmt_text]. norm. apply st_sel.
    assert (Hn : next r <> Some (K "ELSE")) by (apply Hf; reflexivity).
    eapply (rd_node CSCRIPT_T selection_statement [K "IF"; C "("; NT expression; C ")"; NT statement]); [reflexivity|apply unblocked; exact Hn| |].
    tok (KW "IF"). tok (p "("). eapply rdl_nt; [apply exps_rd; eassumption|]. tok (p ")").
    eapply rdl_nt; [apply IH; try eassumption; intros _; exact Hn|fin]. reflexivity.
  - intros es s IH s' IH' F r n t m Hf H. simpl in H, F. open_lets. cbn [stmt_text]. norm. apply st_sel.
    rule CSCRIPT_T selection_statement [K "IF"; C "("; NT expression; C ")"; NT statement; K "ELSE"; NT statement].
    tok (KW "IF"). tok (p "("). eapply rdl_nt; [apply exps_rd; eassumption|]. tok (p ")").
    eapply rdl_nt; [apply IH; try eassumption; intros X; congruence|]. tok (KW "ELSE").
    eapply rdl_nt; [apply IH'; eassumption|fin]. reflexivity.
  - intros es s IH F r n t m Hf H. simpl in H, F. open_lets. cbn [stmt_text]. norm. apply st_iter.
    rule CSCRIPT_T iteration_statement [K "WHILE"; C "("; NT expression; C ")"; NT statement].
    tok (KW "WHILE"). tok (p "("). eapply rdl_nt; [apply exps_rd; eassumption|]. tok (p ")").
    eapply rdl_nt; [apply IH; eassumption|fin]. reflexivity.
  - intros i c a s IH F r n t m Hf H. simpl in H, F. open_lets. cbn [stmt_text]. norm. apply st_iter.
    assert (Hf' : may_follow s r) by exact Hf.
    assert (Ri : forall r, match i with FDecl _ => rd CSCRIPT_T (NT declaration) (finit_text i ++ r) r n (VTree t0) z
                                      | _ => rd CSCRIPT_T (NT expression_statement) (finit_text i ++ r) r n (VTree t0) z end).
    { intros r0. destruct i as [|es|d]; simpl in *.
      - open_lets. rule CSCRIPT_T expression_statement [C ";"]. tok (p ";"). fin. reflexivity.
      - norm. rule CSCRIPT_T expression_statement [NT expression; C ";"]. eapply rdl_nt; [apply exps_rd; eassumption|]. tok (p ";"). fin. reflexivity.
      - apply decl_rd; assumption. }
    destruct i as [|es|d], a as [a|]; cbn [opt_texts app] in *; simpl opt_tree in *; open_lets.
    + rule CSCRIPT_T iteration_statement [K "FOR"; C "("; NT expression_statement; NT expression_statement; NT expression; C ")"; NT statement].
      tok (KW "FOR"). tok (p "("). eapply rdl_nt; [apply Ri|]. eapply rdl_nt; [apply opt_stmt_rd; eassumption|]. eapply rdl_nt; [apply exps_rd; eassumption|].
      tok (p ")"). eapply rdl_nt; [apply IH; eassumption|fin]. reflexivity.
    + rule CSCRIPT_T iteration_statement [K "FOR"; C "("; NT expression_statement; NT expression_statement; C ")"; NT statement].
      tok (KW "FOR"). tok (p "("). eapply rdl_nt; [apply Ri|]. eapply rdl_nt; [apply opt_stmt_rd; eassumption|].
      tok (p ")"). eapply rdl_nt; [apply IH; eassumption|fin]. reflexivity.
    + rule CSCRIPT_T iteration_statement [K "FOR"; C "("; NT expression_statement; NT expression_statement; NT expression; C ")"; NT statement].
      tok (KW "FOR"). tok (p "("). eapply rdl_nt; [apply Ri|]. eapply rdl_nt; [apply opt_stmt_rd; eassumption|]. eapply rdl_nt; [apply exps_rd; eassumption|].
      tok (p ")"). eapply rdl_nt; [apply IH; eassumption|fin]. reflexivity.
    + rule CSCRIPT_T iteration_statement [K "FOR"; C "("; NT expression_statement; NT expression_statement; C ")"; NT statement].
      tok (KW "FOR"). tok (p "("). eapply rdl_nt; [apply Ri|]. eapply rdl_nt; [apply opt_stmt_rd; eassumption|].
      tok (p ")"). eapply rdl_nt; [apply IH; eassumption|fin]. reflexivity.
    + rule CSCRIPT_T iteration_statement [K "FOR"; C "("; NT declaration; NT expression_statement; NT expression; C ")"; NT statement].
      tok (KW "FOR"). tok (p "("). eapply rdl_nt; [apply Ri|]. eapply rdl_nt; [apply opt_stmt_rd; eassumption|]. eapply rdl_nt; [apply exps_rd; eassumption|].
      tok (p ")"). eapply rdl_nt; [apply IH; eassumption|fin]. reflexivity.
    + rule CSCRIPT_T iteration_statement [K "FOR"; C "("; NT declaration; NT expression_statement; C ")"; NT statement].
      tok (KW "FOR"). tok (p "("). eapply rdl_nt; [apply Ri|]. eapply rdl_nt; [apply opt_stmt_rd; eassumption|].
      tok (p ")"). eapply rdl_nt; [apply IH; eassumption|fin]. reflexivity.
  - intros _ r n t m _ H. simpl in H. open_lets. cbn [stmt_text app]. apply st_jump.
    rule CSCRIPT_T jump_statement [K "BREAK"; C ";"]. tok (KW "BREAK"). tok (p ";"). fin. reflexivity.
  - intros es F r n t m _ H. simpl in H, F. open_lets. cbn [stmt_text]. norm. apply st_jump. destruct es as [es|]; cbn [opt_texts app]; simpl in *.
    + rule CSCRIPT_T jump_statement [K "RETURN"; NT expression; C ";"]. tok (KW "RETURN"). eapply rdl_nt; [apply exps_rd; eassumption|].
      tok (p ";"). fin. reflexivity.
    + open_lets. rule CSCRIPT_T jump_statement [K "RETURN"; C ";"]. tok (KW "RETURN"). tok (p ";"). fin. reflexivity.
  - intros _ r n t m _ H. simpl in H. open_lets. cbn [stmt_text app]. 
    rule CSCRIPT_T statement [K "REPL"; C ";"]. tok (KW "REPL"). tok (p ";"). fin. reflexivity.
  - intros d F r n t m _ H. simpl in H, F. cbn [item_text]. rule CSCRIPT_T block_item [NT declaration].
    eapply rdl_nt; [apply decl_rd; eassumption|fin]. reflexivity.
  - intros s IH F r n t m Hf H. simpl in H, F. cbn [item_text]. rule CSCRIPT_T block_item [NT statement].
    eapply rdl_nt; [apply IH; eassumption|fin]. reflexivity.
  - intros i IH F r n ts m Hf H. simpl in H, F. open_lets. cbn [items_text]. rule CSCRIPT_T block_item_list [NT block_item].
    eapply rdl_nt; [apply IH; try eassumption; destruct i; [exact I|intros _; exact Hf]|fin]. reflexivity.
  - intros is IHs i IH F r n ts m Hf H. simpl in H, F. open_lets. cbn [items_text]. norm. rule CSCRIPT_T block_item_list [NT block_item_list; NT block_item].
    assert (R : rd CSCRIPT_T (NT block_item) (item_text i ++ r) r z (VTree t) m) by (apply IH; try eassumption; destruct i; [exact I|intros _; exact Hf]).
    eapply rdl_nt; [apply IHs; try eassumption; exact (no_else block_item _ _ _ _ _ eq_refl R)|]. eapply rdl_nt; [exact R|fin]. reflexivity.
Qed.


Lemma stmt_rd s : stmt_fits s -> forall r n t m, may_follow s r -> stmt_tree s n = (t, m) -> rd CSCRIPT_T (NT statement) (stmt_text s ++ r) r n (VTree t) m.
Proof. exact (proj1 stmt_parts s). Qed.

(** * Scripts and lines *)

Lemma body_rd b : match b with Some is => items_fit is | None => True end -> forall r k tb k', body_tree b k = (tb, k') ->
  rd CSCRIPT_T (NT compound_statement) (body_text b ++ r) r k (VTree tb) k'.
Proof.
  intros F r k tb k' E. unfold body_text, body_tree in *. norm. destruct b as [is|].
  - open_lets. rule CSCRIPT_T compound_statement [C "{"; NT block_item_list; C "}"]. tok (p "{").
    eapply rdl_nt; [apply (proj2 (proj2 stmt_parts)); try eassumption; discriminate|]. tok (p "}"). fin. reflexivity.
  - open_lets. apply block0_rd.
Qed.
Lemma after_decls_app l : forall l' n, after_decls (l ++ l') n = after_decls l' (after_decls l n).
Proof. induction l as [|d l IH]; intros l' n; [reflexivity|]. apply IH. Qed.
Lemma decls_rd d l : Forall decl_fits (d :: l) -> forall r n, exists t,
  rd CSCRIPT_T (NT declaration_list) (List.concat (map decl_text (d :: l)) ++ r) r n (VTree t) (after_decls (d :: l) n).
Proof.
  induction l as [|x l IH] using rev_ind; intros F r n.
  - inversion F as [|? ? Fd _]; subst. cbn [map List.concat after_decls]. rewrite app_nil_r. destruct (decl_tree d n) as [t m] eqn:E. eexists.
    rule CSCRIPT_T declaration_list [NT declaration]. eapply rdl_nt; [apply decl_rd; eassumption|fin]. reflexivity.
  - change (d :: l ++ [x]) with ((d :: l) ++ [x]) in *. apply Forall_app in F as [F1 F2]. inversion F2 as [|? ? Fx _]; subst.
    rewrite map_app, concat_app, after_decls_app. cbn [map List.concat]. rewrite app_nil_r. norm.
    destruct (IH F1 (decl_text x ++ r) n) as (t & R). cbn [map List.concat] in R. rewrite <- app_assoc in R. cbn [after_decls] in *. destruct (decl_tree x _) as [u m] eqn:E. eexists.
    rule CSCRIPT_T declaration_list [NT declaration_list; NT declaration]. eapply rdl_nt; [exact R|]. eapply rdl_nt; [apply decl_rd; eassumption|fin]. reflexivity.
Qed.

Lemma ext_rd x : ext_fits x -> forall r n t m, next r <> Some (K "ELSE") -> ext_tree x n = (t, m) ->
  rd CSCRIPT_T (NT cscript_external_declaration) (ext_text x ++ r) r n (VTree t) m.
Proof.
  destruct x as [ss d b|ss d q qs b|d|s]; cbn [ext_fits ext_tree ext_text]; intros F r n t m Hr H.
  - destruct F as (F1 & F2 & F3).
    destruct (specs_tree ss n) as [ts n1] eqn:E1. destruct (declr_tree d n1) as [t1 n2] eqn:E2.
    destruct (body_tree b n2) as [tb n3] eqn:E3. open_lets. norm.
    rule CSCRIPT_T cscript_external_declaration [NT external_declaration]. eapply rdl_nt; [|fin].
    rule CSCRIPT_T external_declaration [NT function_definition]. eapply rdl_nt; [|fin].
    rule CSCRIPT_T function_definition [NT declaration_specifiers; NT declarator; NT compound_statement].
    eapply rdl_nt; [apply specs_rd; eassumption|]. eapply rdl_nt; [apply declr_rd; eassumption|]. eapply rdl_nt; [apply body_rd; eassumption|fin].
    all: reflexivity.
  - destruct F as (F1 & F2 & F3 & F4).
    destruct (specs_tree ss n) as [ts n1] eqn:E1. destruct (declr_tree d n1) as [t1 n2] eqn:E2.
    destruct (body_tree b _) as [tb n3] eqn:E3. injection H as <- <-. repeat rewrite <- app_assoc.
    destruct (decls_rd q qs F3 (body_text b ++ r) n2) as (u & R).
    rule CSCRIPT_T cscript_external_declaration [NT external_declaration]. eapply rdl_nt; [|fin].
    rule CSCRIPT_T external_declaration [NT function_definition]. eapply rdl_nt; [|fin].
    rule CSCRIPT_T function_definition [NT declaration_specifiers; NT declarator; NT declaration_list; NT compound_statement].
    eapply rdl_nt; [apply specs_rd; eassumption|]. eapply rdl_nt; [apply declr_rd; eassumption|]. eapply rdl_nt; [exact R|]. eapply rdl_nt; [apply body_rd; eassumption|fin].
    all: reflexivity.
  - rule CSCRIPT_T cscript_external_declaration [NT external_declaration]. eapply rdl_nt; [|fin].
    rule CSCRIPT_T external_declaration [NT declaration]. eapply rdl_nt; [apply decl_rd; eassumption|fin]. all: reflexivity.
  - rule CSCRIPT_T cscript_external_declaration [NT statement]. eapply rdl_nt; [apply stmt_rd; try eassumption; intros _; exact Hr|fin]. reflexivity.
Qed.

Lemma line_rd x : line_fits x -> forall r n t m, line_tree x n = (t, m) -> rd REPL_T (NT repl_statement) (line_text x ++ r) r n (VTree t) m.
Proof.
  destruct x as [|es|d|s|x]; simpl; intros F r n t m H.
  - open_lets. rule REPL_T repl_statement [NT expression_statement]. eapply rdl_nt; [|fin].
    rule REPL_T expression_statement [C ";"]. tok (p ";"). fin. all: reflexivity.
  - norm. rule REPL_T repl_statement [NT expression_statement]. eapply rdl_nt; [|fin].
    rule REPL_T expression_statement [NT expression; C ";"]. eapply rdl_nt; [apply exps_rd; eassumption|]. tok (p ";"). fin. all: reflexivity.
  - rule REPL_T repl_statement [NT declaration]. eapply rdl_nt; [apply decl_rd; eassumption|fin]. reflexivity.
  - open_lets. rule REPL_T repl_statement [K "C_PRE_INC"]. tok (C_PRE_INC s). fin. reflexivity.
  - open_lets. rule REPL_T repl_statement [C "?"; K "IDENTIFIER"]. tok (p "?"). tok (IDENTIFIER x). fin. reflexivity.
Qed.

Lemma seq_tree_app {A} (f : A -> Z -> tree * Z) l : forall l' n, seq_tree f (l ++ l') n =
  let (ts, m) := seq_tree f l n in let (ts', m') := seq_tree f l' m in (ts ++ ts', m').
Proof.
  induction l as [|b l IH]; intros l' n; simpl; [destruct (seq_tree f l' n); reflexivity|].
  destruct (f b n) as [t m]. rewrite IH. destruct (seq_tree f l m) as [ts m1]. destruct (seq_tree f l' m1). reflexivity.
Qed.

Lemma seq_text_app {A} (f : A -> list token) l l' : seq_text f (l ++ l') = seq_text f l ++ seq_text f l'.
Proof. unfold seq_text. rewrite map_app, concat_app. reflexivity. Qed.

Lemma seq_rd T {A} (f : A -> list token) (g : A -> Z -> tree * Z) (good : A -> Prop) (follows : list token -> Prop) X :
  look T (translation_unit T) [NT X] = Some (mkprod (translation_unit T) [NT X] (node (fun v => tree_chain_head (v 1)))) ->
  look T (translation_unit T) [NT (translation_unit T); NT X] =
    Some (mkprod (translation_unit T) [NT (translation_unit T); NT X] (node (fun v => tree_chain (v 2) (v 1)))) ->
  (forall x r n t m, good x -> follows r -> g x n = (t, m) -> rd T (NT X) (f x ++ r) r n (VTree t) m /\ follows (f x ++ r)) ->
  forall l, l <> [] -> Forall good l -> forall r n ts m, follows r -> seq_tree g l n = (ts, m) ->
  rd T (NT (translation_unit T)) (seq_text f l ++ r) r n (VTree (CHAIN_HEAD ts)) m.
Proof.
  intros L1 L2 Hx l. induction l as [|x l IH] using rev_ind; intros Hl Hg r n ts m Hr H; [congruence|].
  apply Forall_app in Hg as [G1 G2]. inversion G2 as [|? ? Gx _]; subst.
  rewrite seq_tree_app in H. destruct (seq_tree g l n) as [us k] eqn:E. simpl in H. destruct (g x k) as [t k'] eqn:E2. injection H as <- <-.
  rewrite seq_text_app. unfold seq_text at 2. cbn [map List.concat]. rewrite app_nil_r. norm.
  destruct (Hx x r k t k' Gx Hr E2) as [R Hr'].
  destruct l as [|y l].
  - injection E as <- <-. eapply rd_node; [exact L1|apply not_blocked; destruct T; discriminate| |]. eapply rdl_nt; [exact R|fin]. reflexivity.
  - eapply rd_node; [exact L2|apply not_blocked; destruct T; discriminate| |]. eapply rdl_nt; [apply IH; [discriminate|exact G1|exact Hr'|exact E]|].
    eapply rdl_nt; [exact R|fin]. reflexivity.
Qed.

Theorem script_parses l n ts m : l <> [] -> Forall ext_fits l -> seq_tree ext_tree l n = (ts, m) ->
  parses CSCRIPT_T n (seq_text ext_text l) (CHAIN_HEAD ts) m.
Proof.
  intros Hl Hg H. rewrite <- (app_nil_r (seq_text ext_text l)).
  destruct (seq_rd CSCRIPT_T ext_text ext_tree ext_fits (fun r => next r <> Some (K "ELSE")) cscript_external_declaration eq_refl eq_refl)
    with (l := l) (r := @nil token) (n := n) (ts := ts) (m := m) as [d [Hd V]]; auto.
  - intros x r k t k' G Hr E. pose proof (ext_rd x G r k t k' Hr E) as R. split; [exact R|].
    exact (no_else cscript_external_declaration _ _ _ _ _ eq_refl R).
  - discriminate.
  - exists d. rewrite app_nil_r in Hd |- *. split; assumption.
Qed.

Theorem lines_parse l n ts m : l <> [] -> Forall line_fits l -> seq_tree line_tree l n = (ts, m) ->
  parses REPL_T n (seq_text line_text l) (CHAIN_HEAD ts) m.
Proof.
  intros Hl Hg H. rewrite <- (app_nil_r (seq_text line_text l)).
  destruct (seq_rd REPL_T line_text line_tree line_fits (fun r => True) repl_statement eq_refl eq_refl)
    with (l := l) (r := @nil token) (n := n) (ts := ts) (m := m) as [d [Hd V]]; auto.
  - intros x r k t k' G _ E. split; [exact (line_rd x G r k t k' E)|exact I].
  - exists d. rewrite app_nil_r in Hd |- *. split; assumption.
Qed.
