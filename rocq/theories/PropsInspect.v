(** C73: what the REPL tells about a name (src/inspect.c, src/evaluate.c:1009-1016, src/parser.m4:1396-1401).  [E] are the external functions and memory,
    [H] the preprocessor, the printing of floating-point numbers and the places of declarations. *)
From Coq Require Import ZArith List String Ascii Bool Lia.
From Verif Require Import CInt Tree SpecResolver SpecTypes State Eval Lexer Grammar Typename Repl Session SpecLexer SpecScan ScanFacts
  SpecParser SpecSyntax SpecNames NameFacts VarFacts SpecRun RunFacts SpecExpr SpecVars SpecPtr SpecCalls StepsFacts EvalInv SpecTypesFacts ParserFacts
  SyntaxFacts SyntaxProps LexerFacts LexerFacts3 TestEnv TestRun TestScan SpecSession SessionFacts SessionFacts2 SpecPrint PrintFacts SpecInspect InspectFacts
  PropsStruct PropsSession PropsPrint.
Import ListNotations.
Local Open Scope string_scope.
Local Open Scope Z_scope.
Local Open Scope list_scope.

(** C73.  For a variable: its type in words, its value, its size and where it was declared.  The size needs a new variable; apart from it
    nothing changes ([only_new]). *)
Theorem C73_variable : forall E H se x line t a n k d v, let s := se_eval se in typed H se [p "?"; IDENTIFIER x] line -> stack s <> [] ->
  means s (string_of_list_ascii x) (T_LIVE_VAR t a false n) -> type_size s t k -> described s t d -> shown E s 0 (T_LIVE_VAR t a false n) v ->
  (exists s', refuses E 16 s' /\ forall r, repl_round E H se line r <-> r = Ends (NoMemory 16 s')) \/
  exists st s' size file line_no, l_cond st = INITIAL /\ only_new E s [] s' /\ decimal k size /\ declared_at H s' x file line_no /\
    forall r, repl_round E H se line r <->
      r = Continues (says_kind x d ++ says_value x v ++ says_size x size ++ says_place x file line_no) (mksession st (se_names se) s').
Proof. exact inspect_variable. Qed.
Print Assumptions C73_variable.

(** For an array the process crashes: the place of the declaration was not recorded and is followed all the same. *)
Theorem C73_array : forall E H se x line t a n d v, let s := se_eval se in typed H se [p "?"; IDENTIFIER x] line -> stack s <> [] ->
  means s (string_of_list_ascii x) (T_LIVE_VAR (D_T_PTR t) a true n) -> described s (D_T_PTR t) d -> shown E s 0 (T_LIVE_VAR (D_T_PTR t) a true n) v ->
  (exists s', refuses E 16 s' /\ forall r, repl_round E H se line r <-> r = Ends (NoMemory 16 s')) \/
  (forall r, repl_round E H se line r <-> r = Ends UB).
Proof. exact inspect_array. Qed.
Print Assumptions C73_array.

(** It also crashes for pointers to structures and unions without a name. *)
Theorem C73_nameless : forall E H se x line t a arr n c, let s := se_eval se in typed H se [p "?"; IDENTIFIER x] line ->
  means s (string_of_list_ascii x) (T_LIVE_VAR t a arr n) -> view_comp s (behind_pointers t) = Some c -> cd_id c = NULL ->
  forall r, repl_round E H se line r <-> r = Ends UB.
Proof. exact inspect_nameless. Qed.
Print Assumptions C73_nameless.

(** Of structures, functions and enumeration constants only the kind is told, of functions also the place.  (The type of a structure is not.) *)
Theorem C73_other : forall E H se x line v w b, let s := se_eval se in typed H se [p "?"; IDENTIFIER x] line -> means s (string_of_list_ascii x) v -> other_kind v w b ->
  exists st s' place, l_cond st = INITIAL /\ only_gc E s s' /\
    (if b then exists file line_no, declared_at H s' x file line_no /\ place = says_place x file line_no else place = []) /\
    forall r, repl_round E H se line r <-> r = Continues (says_kind x (letters_of w) ++ place) (mksession st (se_names se) s').
Proof. exact inspect_other. Qed.
Print Assumptions C73_other.

(** A name that means nothing is not an error (compare C66). *)
Theorem C73_not_found : forall E H se x line, lookup (se_eval se) (string_of_list_ascii x) = NULL -> typed H se [p "?"; IDENTIFIER x] line ->
  exists st, l_cond st = INITIAL /\ forall r, repl_round E H se line r <->
    r = Continues (letters_of "Object not found" ++ [line_feed]) (mksession st (se_names se) (se_eval se)).
Proof. exact inspect_nothing. Qed.
Print Assumptions C73_not_found.

(** With a semicolon there are two statements on the line, and the process ends (C64). *)
Theorem C73_semicolon : forall E H se x line, l_cond (se_lex se) = INITIAL -> writes (is_type se) false [p "?"; IDENTIFIER x; p ";"] line ->
  forall r, repl_round E H se line r <-> r = Quits.
Proof. exact inspect_semicolon. Qed.
Print Assumptions C73_semicolon.

(** The name of a type cannot be asked about: the line is not in the grammar. *)
Theorem C73_type_name : forall E H se x line, l_cond (se_lex se) = INITIAL -> writes (is_type se) false [p "?"; TYPE_NAME x] line ->
  (exists r, repl_round E H se line r) /\
  forall r, repl_round E H se line r -> exists st, r = Continues [] (mksession st (se_names se) (se_eval se)) /\ l_cond st = INITIAL.
Proof. exact inspect_type_name. Qed.
Print Assumptions C73_type_name.

(** ** Examples *)

(** [struct S {…}; struct S v; struct S **r; unsigned short u = 7; short c[3]; struct { int i; } *q; enum { A }; int f() { }] *)
Definition seen : state := after [decl_S; T_DECL (-61) (CHAIN_HEAD (ref_S (-62))) (CHAIN_HEAD [id "v"]);
  T_DECL (-63) (CHAIN_HEAD (ref_S (-64))) (CHAIN_HEAD [T_POINTER (T_POINTER (id "r"))]); T_ASSIGN (-65) (id "r") (num 0);
  T_DECL (-66) (CHAIN_HEAD (words [T_UNSIGNED_TS; T_SHORT_TS])) (CHAIN_HEAD [T_ASSIGN (-67) (id "u") (num 7)]);
  T_DECL (-68) (CHAIN_HEAD (words [T_SHORT_TS])) (CHAIN_HEAD [T_ARRAY (id "c") (num 3)]);
  T_DECL (-69) (CHAIN_HEAD [T_DECL_COMPOUND (-70) sstruct NULL (CHAIN_HEAD [decl_int "i"])]) (CHAIN_HEAD [T_POINTER (id "q")]);
  fn_int (-71) "f" NULL []].
Definition se : session := session_start seen.
Lemma asked x l : laid (is_type se) false [sp (pu "?"); nm x] = true -> text_of [sp (pu "?"); nm x] = l -> existsb (Ascii.eqb newline) l = false ->
  typed host0 se [p "?"; IDENTIFIER (txt x)] l.
Proof.
  intros L <- N. apply typed_start; [vm_compute; reflexivity|exact (laid_ok _ [sp (pu "?"); nm x] false L)|discriminate|exact N].
Qed.
Lemma seen_stack : stack seen <> [].
Proof. assert (Q : match stack seen with [] => false | _ => true end = true) by (vm_compute; reflexivity). destruct (stack seen); [discriminate Q|discriminate]. Qed.

Example C73_nontrivial : typed host0 se [p "?"; IDENTIFIER (txt "r")] (txt "? r") /\ stack (se_eval se) <> [] /\
  let t := D_T_PTR (D_T_PTR struct_S) in
  means (se_eval se) (string_of_list_ascii (txt "r")) (T_LIVE_VAR t 4224 false 0) /\ type_size (se_eval se) t 8 /\
  described (se_eval se) t (letters_of "pointer to a pointer to a S") /\ shown env0 (se_eval se) 0 (T_LIVE_VAR t 4224 false 0) (letters_of "(nil)").
Proof.
  split; [apply asked; vm_compute; reflexivity|]. split; [exact seen_stack|]. change (se_eval se) with seen. intros t.
  split; [apply means_lookup; [discriminate|vm_compute; reflexivity]|]. split; [apply size_pointer|]. split.
  - assert (V : option_map cd_id (view_comp seen struct_S) = Some (T_IDENTIFIER "S")) by (vm_compute; reflexivity).
    apply (desc_pointer seen _ (letters_of "pointer to a S")). apply (desc_pointer seen _ (letters_of "S")).
    destruct (view_comp seen struct_S) as [c|] eqn:Q; [|discriminate V]. apply (desc_compound seen _ c "S" Q). cbn [option_map] in V. congruence.
  - apply shown_pointer; [apply storageb_ok; vm_compute; reflexivity|left; discriminate|].
    replace (unsigned_at (mem seen) 4224 8) with 0 by (vm_compute; reflexivity). left. split; reflexivity.
Qed.
Example C73_nontrivial_array : typed host0 se [p "?"; IDENTIFIER (txt "c")] (txt "? c") /\ stack (se_eval se) <> [] /\
  means (se_eval se) (string_of_list_ascii (txt "c")) (T_LIVE_VAR (D_T_PTR (D_T D_T_SHORT)) 4352 true 6) /\
  described (se_eval se) (D_T_PTR (D_T D_T_SHORT)) (letters_of "pointer to a signed short") /\
  exists v, shown env0 (se_eval se) 0 (T_LIVE_VAR (D_T_PTR (D_T D_T_SHORT)) 4352 true 6) v.
Proof.
  split; [apply asked; vm_compute; reflexivity|]. split; [exact seen_stack|]. change (se_eval se) with seen.
  split; [apply means_lookup; [discriminate|vm_compute; reflexivity]|]. split; [apply (desc_pointer seen _ (letters_of "signed short")); apply desc_number|].
  eexists. apply shown_pointer; [apply storageb_ok; vm_compute; reflexivity|left; discriminate|].
  apply print_address. assert (Q : (0 <=? unsigned_at (mem seen) 4352 8) = true) by (vm_compute; reflexivity). apply Z.leb_le, Q.
Qed.
Example C73_nontrivial_nameless : typed host0 se [p "?"; IDENTIFIER (txt "q")] (txt "? q") /\
  exists t c, means (se_eval se) (string_of_list_ascii (txt "q")) (T_LIVE_VAR t 4384 false 0) /\ view_comp (se_eval se) (behind_pointers t) = Some c /\ cd_id c = NULL.
Proof.
  split; [apply asked; vm_compute; reflexivity|]. change (se_eval se) with seen.
  set (t := T_DECL_COMPOUND (-70) sstruct NULL (CHAIN_HEAD [decl_int "i"])). exists (D_T_PTR t).
  assert (V : option_map cd_id (view_comp seen t) = Some NULL) by (vm_compute; reflexivity).
  destruct (view_comp seen t) as [c|] eqn:Q; [|discriminate V]. exists c. split; [apply means_lookup; [discriminate|vm_compute; reflexivity]|].
  split; [exact Q|]. cbn [option_map] in V. congruence.
Qed.
Example C73_nontrivial_other : typed host0 se [p "?"; IDENTIFIER (txt "f")] (txt "? f") /\ typed host0 se [p "?"; IDENTIFIER (txt "v")] (txt "? v") /\
  typed host0 se [p "?"; IDENTIFIER (txt "zz")] (txt "? zz") /\
  (exists v, means (se_eval se) (string_of_list_ascii (txt "f")) v /\ other_kind v "Function" true) /\
  (exists v, means (se_eval se) (string_of_list_ascii (txt "v")) v /\ other_kind v "Live Compound" false) /\
  lookup (se_eval se) (string_of_list_ascii (txt "zz")) = NULL.
Proof.
  split; [apply asked; vm_compute; reflexivity|]. split; [apply asked; vm_compute; reflexivity|]. split; [apply asked; vm_compute; reflexivity|].
  change (se_eval se) with seen. split; [|split; [|vm_compute; reflexivity]].
  - exists (T_FN (id "f") NULL (D_T D_T_INT) (CHAIN_HEAD [])). split; [apply means_lookup; [discriminate|vm_compute; reflexivity]|constructor].
  - assert (K : match lookup seen "v" with T_LIVE_COMPOUND _ _ _ => true | _ => false end = true) by (vm_compute; reflexivity).
    exists (lookup seen "v"). split; [apply means_lookup; [|reflexivity]; intros Q; rewrite Q in K; discriminate K|].
    destruct (lookup seen "v"); try discriminate K. constructor.
Qed.
Example C73_nontrivial_semicolon : exists line, l_cond (se_lex se) = INITIAL /\ writes (is_type se) false [p "?"; IDENTIFIER (txt "u"); p ";"] line.
Proof.
  exists (txt "? u;"). split; [reflexivity|]. change (txt "? u;") with (text_of [sp (pu "?"); nm "u"; pu ";"]).
  apply (laid_ok (is_type se) [sp (pu "?"); nm "u"; pu ";"] false). vm_compute. reflexivity.
Qed.
Example C73_nontrivial_type_name : exists se line, l_cond (se_lex se) = INITIAL /\ writes (is_type se) false [p "?"; TYPE_NAME (txt "T")] line.
Proof.
  exists (mksession (se_lex se0) (add_name "T" (se_names se0)) (se_eval se0)), (txt "? T"). split; [reflexivity|]. change (txt "? T") with (text_of [sp (pu "?"); ty "T"]).
  apply (laid_ok (is_type _) [sp (pu "?"); ty "T"] false). vm_compute. reflexivity.
Qed.

(** It is false that the answer tells unsigned from signed numbers: for the variable [u] of type unsigned short it is "signed short". *)
Theorem C73_signed_refuted : exists E H se line x a out se' rest, typed H se [p "?"; IDENTIFIER x] line /\
  means (se_eval se) (string_of_list_ascii x) (T_LIVE_VAR (D_T D_T_USHORT) a false 0) /\ repl_round E H se line (Continues out se') /\
  out = says_kind x (letters_of "signed short") ++ rest.
Proof.
  assert (Ty : typed host0 se [p "?"; IDENTIFIER (txt "u")] (txt "? u")) by (apply asked; vm_compute; reflexivity).
  set (rest := says_value (txt "u") (letters_of "7") ++ says_size (txt "u") (letters_of "2") ++ says_place (txt "u") (letters_of "<REPL>") (letters_of "1")).
  assert (V : match inspect env0 host0 20 "u" seen with Ok o _ => Some o | _ => None end = Some (says_kind (txt "u") (letters_of "signed short") ++ rest)) by (vm_compute; reflexivity).
  destruct (inspect_line env0 host0 se (txt "u") (txt "? u") Ty) as (st & _ & L).
  change (string_of_list_ascii (txt "u")) with "u" in L. change (se_eval se) with seen in L.
  destruct (inspect env0 host0 20 "u" seen) as [out s'| | | | | | | |] eqn:Q; try discriminate V. injection V as V.
  exists env0, host0, se, (txt "? u"), (txt "u"), 4256, out, (mksession st (se_names se) s'), rest. split; [exact Ty|]. split.
  - apply means_lookup; [discriminate|vm_compute; reflexivity].
  - split; [|exact V]. apply L. left. exists 20%nat, out, s'. split; [exact Q|reflexivity].
Qed.
Print Assumptions C73_signed_refuted.
