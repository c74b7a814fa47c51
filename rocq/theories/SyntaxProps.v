(** Consequences of the theorems of SyntaxFacts.v used in PropsParser.v. *)
From Coq Require Import ZArith List String Ascii Bool Lia.
From Verif Require Import CInt Tree Lexer Grammar ParserFacts SpecParser SpecSyntax SyntaxFacts AdjacentFacts.
Import ListNotations.
Local Open Scope string_scope.
Local Open Scope Z_scope.
Local Open Scope list_scope.

Lemma one_line x n t m : line_fits x -> line_tree x n = (t, m) -> parses_only REPL_T n (line_text x) (CHAIN_HEAD [t]) m.
Proof.
  intros F H. apply only. rewrite <- (app_nil_r (line_text x)). apply (lines_parse [x]); [discriminate|repeat constructor; exact F|].
  simpl. rewrite H. reflexivity.
Qed.
Lemma one_ext x n t m : ext_fits x -> ext_tree x n = (t, m) -> parses_only CSCRIPT_T n (ext_text x) (CHAIN_HEAD [t]) m.
Proof.
  intros F H. apply only. rewrite <- (app_nil_r (ext_text x)). apply (script_parses [x]); [discriminate|repeat constructor; exact F|].
  simpl. rewrite H. reflexivity.
Qed.

Lemma expressions_parse n es ts m : fits_all es -> etrees es n = (ts, m) ->
  parses_only REPL_T n (texts es ++ [p ";"]) (CHAIN_HEAD [T_EXPR_LIST (CHAIN_HEAD ts)]) m /\
  parses_only CSCRIPT_T n (texts es ++ [p ";"]) (CHAIN_HEAD [T_EXPR_LIST (CHAIN_HEAD ts)]) m.
Proof.
  intros F H. split.
  - apply (one_line (LExp es)); [exact F|]. simpl. unfold elist. rewrite H. reflexivity.
  - apply (one_ext (XStmt (SExp es))); [exact F|]. simpl. unfold elist. rewrite H. reflexivity.
Qed.

Lemma prec_range o : (2 <= prec o <= 11)%nat.
Proof. destruct o as [[]|[]| |]; simpl; lia. Qed.

Lemma groups_left n o o' a b c ta tb tc n1 n2 m : (12 <= level a)%nat -> (12 <= level b)%nat -> (12 <= level c)%nat -> fits a -> fits b -> fits c ->
  etree a n = (ta, n1) -> etree b n1 = (tb, n2) -> etree c n2 = (tc, m) -> (prec o' <= prec o)%nat ->
  parses_only REPL_T n (text a ++ infix_text o :: text b ++ infix_text o' :: text c ++ [p ";"])
    (CHAIN_HEAD [T_EXPR_LIST (CHAIN_HEAD [infix_tree o' (infix_tree o ta tb) tc])]) m.
Proof.
  intros La Lb Lc Fa Fb Fc Ha Hb Hc Ho. pose proof (prec_range o). pose proof (prec_range o').
  replace (text a ++ infix_text o :: text b ++ infix_text o' :: text c ++ [p ";"]) with (texts (One (Infix o' (Infix o a b) c)) ++ [p ";"])
    by (simpl; repeat rewrite <- app_assoc; simpl; repeat rewrite <- app_assoc; reflexivity).
  apply expressions_parse.
  - simpl. repeat split; auto; lia.
  - simpl. rewrite Ha, Hb, Hc. reflexivity.
Qed.
Lemma groups_right n o o' a b c ta tb tc n1 n2 m : (12 <= level a)%nat -> (12 <= level b)%nat -> (12 <= level c)%nat -> fits a -> fits b -> fits c ->
  etree a n = (ta, n1) -> etree b n1 = (tb, n2) -> etree c n2 = (tc, m) -> (prec o < prec o')%nat ->
  parses_only REPL_T n (text a ++ infix_text o :: text b ++ infix_text o' :: text c ++ [p ";"])
    (CHAIN_HEAD [T_EXPR_LIST (CHAIN_HEAD [infix_tree o ta (infix_tree o' tb tc)])]) m.
Proof.
  intros La Lb Lc Fa Fb Fc Ha Hb Hc Ho. pose proof (prec_range o). pose proof (prec_range o').
  replace (text a ++ infix_text o :: text b ++ infix_text o' :: text c ++ [p ";"]) with (texts (One (Infix o a (Infix o' b c))) ++ [p ";"])
    by (simpl; repeat rewrite <- app_assoc; simpl; repeat rewrite <- app_assoc; reflexivity).
  apply expressions_parse.
  - simpl. repeat split; auto; lia.
  - simpl. rewrite Ha, Hb, Hc. reflexivity.
Qed.
Lemma groups_assign n o o' a b c ta tb tc n1 n2 m : (13 <= level a)%nat -> (13 <= level b)%nat -> fits a -> fits b -> fits c ->
  etree a n = (ta, n1) -> etree b n1 = (tb, n2) -> etree c n2 = (tc, m) ->
  parses_only REPL_T n (text a ++ assign_text o :: text b ++ assign_text o' :: text c ++ [p ";"])
    (CHAIN_HEAD [T_EXPR_LIST (CHAIN_HEAD [T_ASSIGN (m + 1) ta (assigned o ta (T_ASSIGN m tb (assigned o' tb tc)))])]) (m + 2).
Proof.
  intros La Lb Fa Fb Fc Ha Hb Hc.
  replace (text a ++ assign_text o :: text b ++ assign_text o' :: text c ++ [p ";"]) with (texts (One (Assign o a (Assign o' b c))) ++ [p ";"])
    by (simpl; repeat rewrite <- app_assoc; simpl; repeat rewrite <- app_assoc; reflexivity).
  apply expressions_parse.
  - simpl. repeat split; auto; lia.
  - simpl. rewrite Ha, Hb, Hc. replace (m + 1 + 1) with (m + 2) by lia. reflexivity.
Qed.

Lemma nearest_if n es es' s s' c c' t t' n1 n2 n3 m : fits_all es -> fits_all es' -> stmt_fits s -> open s = false -> stmt_fits s' ->
  elist es n = (c, n1) -> elist es' n1 = (c', n2) -> stmt_tree s n2 = (t, n3) -> stmt_tree s' n3 = (t', m) ->
  parses_only CSCRIPT_T n
    ([KW "IF"; p "("] ++ texts es ++ [p ")"; KW "IF"; p "("] ++ texts es' ++ [p ")"] ++ stmt_text s ++ [KW "ELSE"] ++ stmt_text s')
    (CHAIN_HEAD [T_IF c (T_IF c' t t') NULL]) m.
Proof.
  intros F1 F2 F3 O F4 H1 H2 H3 H4. apply (one_ext (XStmt (SIf es (SIfElse es' s s')))).
  - simpl. auto.
  - simpl. rewrite H1, H2, H3, H4. reflexivity.
Qed.

Lemma body_lost n ss k d b : ext_fits (XFn ss (Declr (S k) d) b) ->
  exists sp dl i j m m',
    parses_only CSCRIPT_T n (ext_text (XFn ss (Declr (S k) d) b)) (CHAIN_HEAD [T_DECL i sp dl]) m /\
    parses_only CSCRIPT_T n (ext_text (XDecl (Decl ss (ID1 (Declr (S k) d) None)))) (CHAIN_HEAD [T_DECL j sp dl]) m'.
Proof.
  intros F. destruct (specs_tree ss n) as [ts n1] eqn:E1. destruct (direct_tree d n1) as [t n2] eqn:E2.
  destruct (body_tree b n2) as [tb n3] eqn:E3.
  exists (CHAIN_HEAD ts), (CHAIN_HEAD [pointers (S k) t]). do 4 eexists. split.
  - apply one_ext; [exact F|]. simpl. rewrite E1, E2, E3. reflexivity.
  - apply one_ext; [destruct F as [F1 [F2 _]]; simpl; repeat split; auto|]. simpl. rewrite E1. unfold idecl_tree. simpl. rewrite E2. reflexivity.
Qed.
Lemma body_kept n ss d ps v b sp dd pl bb n1 n2 n3 m :
  ext_fits (XFn ss (Declr 0 (DFn d ps v)) (Some b)) ->
  specs_tree ss n = (sp, n1) -> direct_tree d n1 = (dd, n2) -> params_tree ps n2 = (pl, n3) -> items_tree b n3 = (bb, m) ->
  parses_only CSCRIPT_T n (ext_text (XFn ss (Declr 0 (DFn d ps v)) (Some b)))
    (CHAIN_HEAD [T_DECL m (CHAIN_HEAD sp) (CHAIN_HEAD [T_FN dd (CHAIN_HEAD (pl ++ if v then [T_VARIADIC] else [])) NULL (CHAIN_HEAD bb)])]) (m + 1).
Proof. intros F H1 H2 H3 H4. apply one_ext; [exact F|]. simpl. rewrite H1, H2, H3, H4. reflexivity. Qed.

Lemma declarator_parses n ss k d sp t n1 m : specs_fit ss -> direct_fits d -> specs_tree ss n = (sp, n1) -> direct_tree d n1 = (t, m) ->
  parses_only REPL_T n (specs_text ss ++ stars k ++ direct_text d ++ [p ";"])
    (CHAIN_HEAD [T_DECL m (CHAIN_HEAD sp) (CHAIN_HEAD [pointers k t])]) (m + 1).
Proof.
  intros F1 F2 H1 H2. replace (specs_text ss ++ stars k ++ direct_text d ++ [p ";"]) with (line_text (LDecl (Decl ss (ID1 (Declr k d) None)))).
  - apply one_line; [simpl; repeat split; auto|]. simpl. rewrite H1. unfold idecl_tree. simpl. rewrite H2. reflexivity.
  - simpl. unfold idecl_text. simpl. rewrite app_nil_r. repeat rewrite <- app_assoc. reflexivity.
Qed.
Lemma parenthesised n ss d t m : specs_fit ss -> declr_fits d ->
  (parses REPL_T n (specs_text ss ++ p "(" :: declr_text d ++ [p ")"; p ";"]) t m <-> parses REPL_T n (specs_text ss ++ declr_text d ++ [p ";"]) t m).
Proof.
  intros F1 F2. destruct d as [k d].
  destruct (specs_tree ss n) as [sp n1] eqn:E1. destruct (direct_tree d n1) as [u n2] eqn:E2.
  pose proof (declarator_parses n ss k d sp u n1 n2 F1 F2 E1 E2) as [A1 A2].
  assert (E3 : direct_tree (DParen (Declr k d)) n1 = (pointers k u, n2)) by (simpl; rewrite E2; reflexivity).
  pose proof (declarator_parses n ss 0 (DParen (Declr k d)) sp _ n1 n2 F1 F2 E1 E3) as [B1 B2].
  simpl in *. rewrite <- !app_assoc in *. cbn [app] in *.
  split; intros H; [apply B2 in H as [-> ->]; exact A1|apply A2 in H as [-> ->]; exact B1].
Qed.
Lemma stops_error T fuel w : stops T fuel w = true -> syntax_error T w.
Proof. exact (stops_ok T fuel w). Qed.

Lemma parameters_lost n ss d q qs q' qs' b : ext_fits (XOldFn ss d q qs b) -> ext_fits (XOldFn ss d q' qs' b) ->
  (forall k, after_decls (q :: qs) k = after_decls (q' :: qs') k) ->
  exists t m, parses_only CSCRIPT_T n (ext_text (XOldFn ss d q qs b)) t m /\ parses_only CSCRIPT_T n (ext_text (XOldFn ss d q' qs' b)) t m.
Proof.
  intros F F' A. destruct (ext_tree (XOldFn ss d q qs b) n) as [t m] eqn:E.
  assert (E' : ext_tree (XOldFn ss d q' qs' b) n = (t, m)).
  { rewrite <- E. cbn [ext_tree]. destruct (specs_tree ss n) as [ts n1]. destruct (declr_tree d n1) as [t1 n2]. rewrite (A n2). reflexivity. }
  exists (CHAIN_HEAD [t]), m. split; apply one_ext; assumption.
Qed.

Lemma bit_field_parses n x y ss d e sp t w n1 n2 m : plain_specs ss -> specs_fit ss -> declr_fits d -> (1 <= level e)%nat -> fits e ->
  specs_tree ss n = (sp, n1) -> declr_tree d n1 = (t, n2) -> etree e n2 = (w, m) ->
  parses_only REPL_T n ([KW "STRUCT"; IDENTIFIER x; p "{"] ++ specs_text ss ++ declr_text d ++ p ":" :: text e ++ [p ";"; p "}"; IDENTIFIER y; p ";"])
    (CHAIN_HEAD [T_DECL (m + 2)
       (CHAIN_HEAD [T_DECL_COMPOUND (m + 1) sstruct (ident x) (CHAIN_HEAD [T_DECL m (CHAIN_HEAD sp) (CHAIN_HEAD [T_BITFIELD w t])])])
       (CHAIN_HEAD [ident y])]) (m + 3).
Proof.
  intros P F1 F2 L F3 H1 H2 H3.
  replace ([KW "STRUCT"; IDENTIFIER x; p "{"] ++ specs_text ss ++ declr_text d ++ p ":" :: text e ++ [p ";"; p "}"; IDENTIFIER y; p ";"])
    with (line_text (LDecl (Decl (S1 (SDef sstruct (Some x) (M1 (Member ss (D1 (Bits d e)))))) (ID1 (Declr 0 (DName y)) None)))).
  - apply one_line; [simpl; repeat split; auto|]. simpl. rewrite H1, H2, H3. unfold idecl_tree. simpl.
    replace (m + 1 + 1) with (m + 2) by lia. replace (m + 2 + 1) with (m + 3) by lia. reflexivity.
  - simpl. unfold idecl_text. simpl. repeat (rewrite <- app_assoc; cbn [app]). reflexivity.
Qed.
Lemma designated_parses n ss x y i sp t n1 m : specs_fit ss -> init_fits i -> specs_tree ss n = (sp, n1) -> init_tree i (n1 + 1) = (t, m) ->
  parses_only REPL_T n (specs_text ss ++ [IDENTIFIER x; p "="; p "{"; p "."; IDENTIFIER y; p "="] ++ init_text i ++ [p "}"; p ";"])
    (CHAIN_HEAD [T_DECL (m + 1) (CHAIN_HEAD sp)
       (CHAIN_HEAD [T_ASSIGN m (ident x) (CHAIN_HEAD [T_ASSIGN n1 (CHAIN_HEAD [T_COMP_ACCESS NULL (ident y)]) t])])]) (m + 2).
Proof.
  intros F1 F2 H1 H2.
  replace (specs_text ss ++ [IDENTIFIER x; p "="; p "{"; p "."; IDENTIFIER y; p "="] ++ init_text i ++ [p "}"; p ";"])
    with (line_text (LDecl (Decl ss (ID1 (Declr 0 (DName x)) (Some (IList (I1 (Some (De1 (OfMember y))) i) false)))))).
  - apply one_line; [simpl; repeat split; auto|]. simpl. rewrite H1. unfold idecl_tree. simpl. rewrite H2.
    replace (m + 1 + 1) with (m + 2) by lia. reflexivity.
  - simpl. unfold idecl_text. simpl. repeat (rewrite <- app_assoc; cbn [app]). reflexivity.
Qed.
