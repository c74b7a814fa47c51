(** C70: what the REPL shows of variables, pointers, texts, structures, unions and string constants (src/pretty-printer.c, src/repl.c:400-431).
    [E] are the external functions and memory, [H] the preprocessor and the printing of floating-point numbers. *)
From Coq Require Import ZArith List String Ascii Bool Lia.
From Verif Require Import CInt Tree SpecResolver SpecTypes State Eval Lexer Grammar Typename Repl Session SpecLexer SpecScan ScanFacts
  SpecParser SpecSyntax SpecNames NameFacts VarFacts SpecRun RunFacts SpecExpr SpecVars SpecCalls StepsFacts EvalInv SpecTypesFacts ParserFacts
  SyntaxFacts SyntaxProps LexerFacts LexerFacts3 TestEnv TestRun TestScan SpecSession SessionFacts SessionFacts2 SpecPrint PrintFacts PropsStruct PropsSession.
Import ListNotations.
Local Open Scope string_scope.
Local Open Scope Z_scope.
Local Open Scope list_scope.

(** C70.  A line with a name prints what [shown] (SpecPrint.v) says of the variable of that name and a line feed; nothing changes. *)
Theorem C70_shown : forall E H se x line v out, typed H se [IDENTIFIER x; p ";"] line -> means (se_eval se) (string_of_list_ascii x) v ->
  shown E (se_eval se) 0 v out ->
  exists st, l_cond st = INITIAL /\ forall r, repl_round E H se line r <-> r = Continues (out ++ [line_feed]) (mksession st (se_names se) (se_eval se)).
Proof. exact shown_line. Qed.
Print Assumptions C70_shown.

(** A pointer to char that is not null is followed: if nothing is allocated where it points the line has undefined behaviour. *)
Theorem C70_dangling : forall E H se x line a arr n, typed H se [IDENTIFIER x; p ";"] line ->
  means (se_eval se) (string_of_list_ascii x) (T_LIVE_VAR (D_T_PTR (D_T D_T_CHAR)) a arr n) -> storage E (se_eval se) a 8 ->
  let q := unsigned_at (mem (se_eval se)) a 8 in q <> 0 -> (forall b, In b (blocks (se_eval se)) -> ~ (b_base b <= q /\ q + 1 <= b_base b + b_size b)) ->
  forall r, repl_round E H se line r <-> r = Ends UB.
Proof. exact dangling_line. Qed.
Print Assumptions C70_dangling.

(** A string constant prints its characters between quotes. *)
Theorem C70_string : forall E H se x line, typed H se [CONST_STRING x; p ";"] line ->
  exists st, l_cond st = INITIAL /\ forall r, repl_round E H se line r <->
    r = Continues (letters_of """" ++ x ++ letters_of """" ++ [line_feed]) (mksession st (se_names se) (se_eval se)).
Proof. exact string_line. Qed.
Print Assumptions C70_string.

(** What is printed for a string is read as a constant with the same characters if and only if none of them is a backslash, a quote, a line feed or
    NUL ([ordinary], SpecLexer.v). *)
Theorem C70_reread : forall T tn fuel st x, l_cond st = INITIAL -> (List.length x + 2 <= fuel)%nat ->
  (exists st' rest, yylex T tn fuel st (dq :: x ++ [dq]) = Token (CONST_STRING x) st' rest) <-> Forall ordinary x.
Proof. exact reread. Qed.
Print Assumptions C70_reread.

(** A line typed in a session that has just begun, with a preprocessor that changes nothing. *)
Lemma typed_start s l line : includes s = [] -> writes (is_type (session_start s)) false l line -> line <> [] -> existsb (Ascii.eqb newline) line = false ->
  typed host0 (session_start s) l line.
Proof.
  intros I W Ne Nn. split; [reflexivity|]. split; [exact W|]. exists line. split; [|exact W]. split; [exact Ne|]. split.
  - intros J. rewrite (proj2 (existsb_exists _ _) (ex_intro _ _ (conj J (Ascii.eqb_refl newline)))) in Nn. discriminate Nn.
  - exists []. split; [left; reflexivity|]. cbn [session_start se_eval]. rewrite I. reflexivity.
Qed.

(** The string [a"] written ["a\"";]. *)
Definition quote_text : list ascii := ["a"%char; dq].
Definition quote_line : list ascii := dq :: (["a"%char; bs; dq] ++ [dq]) ++ [";"%char].
Lemma quote_typed : typed host0 se0 [CONST_STRING quote_text; p ";"] quote_line.
Proof.
  apply typed_start; [vm_compute; reflexivity| |discriminate|reflexivity].
  apply (wr_token _ _ (dq :: ["a"%char; bs; dq] ++ [dq]) _ [";"%char]).
  - apply sp_string. apply dec_char; [repeat split; discriminate|]. apply dec_quote. constructor.
  - apply (laid_ok _ [pu ";"] false). reflexivity.
Qed.
(** So it is false that typing what was printed for a string gives the string again. *)
Theorem C70_roundtrip_refuted : exists E H se line x out se',
  typed H se [CONST_STRING x; p ";"] line /\ repl_round E H se line (Continues (out ++ [line_feed]) se') /\
  forall fuel st' rest, (List.length x + 2 <= fuel)%nat -> yylex REPL_T (is_type se') fuel (se_lex se') out <> Token (CONST_STRING x) st' rest.
Proof.
  destruct (C70_string env0 host0 se0 quote_text quote_line quote_typed) as (st & C & R).
  exists env0, host0, se0, quote_line, quote_text, (letters_of """" ++ quote_text ++ letters_of """").
  exists (mksession st (se_names se0) (se_eval se0)). split; [exact quote_typed|]. split.
  - apply R. f_equal.
  - intros fuel st' rest F Y. cbn [se_lex] in Y.
    pose proof (proj1 (C70_reread _ _ fuel st quote_text C F) (ex_intro _ st' (ex_intro _ rest Y))) as O.
    apply Forall_inv_tail, Forall_inv in O. destruct O as (_ & O & _). apply O. reflexivity.
Qed.
Print Assumptions C70_roundtrip_refuted.

(** ** Examples *)

(** [struct S { char a; int b; short c[3]; char *d; }; struct T { struct S s; int *n; }; struct T v; v.s.a = 7; v.s.b = -5; v.s.d = "hi"; v.n = 0;
    char *q = 3;] *)
Definition struct_T : tree := T_DECL_COMPOUND (-41) sstruct (id "T") (CHAIN_HEAD
  [T_DECL (-42) (CHAIN_HEAD (ref_S (-43))) (CHAIN_HEAD [id "s"]); T_DECL (-44) (CHAIN_HEAD (words [T_INT_TS])) (CHAIN_HEAD [T_POINTER (id "n")])]).
Definition member (x y : string) : tree := T_COMP_ACCESS (T_COMP_ACCESS (id x) (id "s")) (id y).
Definition nested : state := after [decl_S; T_DECL (-45) (CHAIN_HEAD [struct_T]) NULL;
  T_DECL (-46) (CHAIN_HEAD [T_DECL_COMPOUND (-47) sstruct (id "T") NULL]) (CHAIN_HEAD [id "v"]);
  T_ASSIGN (-48) (member "v" "a") (num 7); T_ASSIGN (-49) (member "v" "b") (num (-5)); T_ASSIGN (-50) (member "v" "d") (T_STRING "hi");
  T_ASSIGN (-51) (T_COMP_ACCESS (id "v") (id "n")) (num 0);
  T_DECL (-52) (CHAIN_HEAD (words [T_CHAR_TS])) (CHAIN_HEAD [T_POINTER (id "q")]); T_ASSIGN (-53) (id "q") (num 3)].
Definition nested_text : list ascii :=
  letters_of "{" ++ [line_feed] ++
  letters_of "    .s = {" ++ [line_feed] ++
  letters_of "        .a = 7" ++ [line_feed] ++
  letters_of "        .b = -5" ++ [line_feed] ++
  letters_of "        .c = 0x1018" ++ [line_feed] ++
  letters_of "        .d = 0x1080 (""hi"")" ++ [line_feed] ++
  letters_of "}" ++ [line_feed] ++
  letters_of "    .n = (nil)" ++ [line_feed] ++
  letters_of "}".
Lemma name_typed x l : laid (is_type (session_start nested)) false [nm x; pu ";"] = true -> text_of [nm x; pu ";"] = l -> existsb (Ascii.eqb newline) l = false ->
  typed host0 (session_start nested) [IDENTIFIER (txt x); p ";"] l.
Proof.
  intros L <- N. apply typed_start; [vm_compute; reflexivity|exact (laid_ok _ [nm x; pu ";"] false L)| |exact N].
  cbn [text_of nm pu sy app]. destruct (txt x); discriminate.
Qed.
Lemma number_shown d c a arr n out : integer_type c = true -> storageb env0 nested a (width c) = true -> print_integer (value_at nested c a) = out ->
  shown env0 nested d (T_LIVE_VAR (D_T c) a arr n) out.
Proof. intros I S <-. apply shown_number; [exact I|apply storageb_ok, S|apply print_decimal]. Qed.
Lemma pointer_shown d t a arr n v out : storageb env0 nested a 8 = true -> unsigned_at (mem nested) a 8 = v -> 0 <= v -> t <> D_T D_T_CHAR -> print_pointer v = out ->
  shown env0 nested d (T_LIVE_VAR (D_T_PTR t) a arr n) out.
Proof. intros S U P Nt <-. apply shown_pointer; [apply storageb_ok, S|left; exact Nt|]. rewrite U. apply print_address, P. Qed.
Lemma same_text d v out out' : shown env0 nested d v out -> out = out' -> shown env0 nested d v out'.
Proof. intros S <-. exact S. Qed.
Example C70_nontrivial : exists v, typed host0 (session_start nested) [IDENTIFIER (txt "v"); p ";"] (txt "v;") /\
  means nested (string_of_list_ascii (txt "v")) v /\ shown env0 nested 0 v nested_text.
Proof.
  set (decl_s := match lookup nested "v" with T_LIVE_COMPOUND _ ((_, T_LIVE_COMPOUND d _ _) :: _) _ => d | _ => NULL end).
  set (decl_v := match lookup nested "v" with T_LIVE_COMPOUND d _ _ => d | _ => NULL end).
  exists (T_LIVE_COMPOUND decl_v
    [("s", T_LIVE_COMPOUND decl_s
       [("a", T_LIVE_VAR (D_T D_T_CHAR) 4112 false 0); ("b", T_LIVE_VAR (D_T D_T_INT) 4116 false 0);
        ("c", T_LIVE_VAR (D_T_PTR (D_T D_T_SHORT)) 4192 true 6); ("d", T_LIVE_VAR (D_T_PTR (D_T D_T_CHAR)) 4128 false 0)] 4112);
     ("n", T_LIVE_VAR (D_T_PTR (D_T D_T_INT)) 4136 false 0)] 4112).
  split; [apply name_typed; vm_compute; reflexivity|]. split; [apply means_lookup; [discriminate|vm_compute; reflexivity]|].
  eapply same_text; [apply shown_compound; eapply shown_member; [apply shown_compound|eapply shown_member; [|constructor]]|].
  - eapply shown_member; [eapply number_shown; vm_compute; reflexivity|]. eapply shown_member; [eapply number_shown; vm_compute; reflexivity|].
    eapply shown_member; [apply (pointer_shown _ _ _ _ _ 4120 (letters_of "0x1018")); [vm_compute; reflexivity|vm_compute; reflexivity|lia|discriminate|vm_compute; reflexivity]|].
    eapply shown_member; [|constructor]. assert (U : unsigned_at (mem nested) 4128 8 = 4224) by (vm_compute; reflexivity).
    apply (shown_text _ _ _ _ _ _ (letters_of "0x1080") (letters_of "hi")); [apply storageb_ok; vm_compute; reflexivity|rewrite U; discriminate| |]; rewrite U.
    + exact (print_address 4224 ltac:(lia)).
    + split; [apply storageb_ok; vm_compute; reflexivity|]. split; [cbn; intuition discriminate|]. split.
      * intros [|[|i]] c Hc; [| |destruct i; discriminate Hc]; injection Hc as <-; vm_compute; reflexivity.
      * vm_compute; reflexivity.
  - apply (pointer_shown _ _ _ _ _ 0 (letters_of "(nil)")); [vm_compute; reflexivity|vm_compute; reflexivity|lia|discriminate|vm_compute; reflexivity].
  - vm_compute. reflexivity.
Qed.
Example C70_nontrivial_dangling : exists a, typed host0 (session_start nested) [IDENTIFIER (txt "q"); p ";"] (txt "q;") /\
  means nested (string_of_list_ascii (txt "q")) (T_LIVE_VAR (D_T_PTR (D_T D_T_CHAR)) a false 0) /\ storage env0 nested a 8 /\
  unsigned_at (mem nested) a 8 = 3 /\ forall b, In b (blocks nested) -> ~ (b_base b <= 3 /\ 4 <= b_base b + b_size b).
Proof.
  exists 4256. split; [apply name_typed; vm_compute; reflexivity|]. split; [apply means_lookup; [discriminate|vm_compute; reflexivity]|].
  split; [apply storageb_ok; vm_compute; reflexivity|]. split; [vm_compute; reflexivity|].
  assert (F : forallb (fun b => 4 <=? b_base b) (blocks nested) = true) by (vm_compute; reflexivity). rewrite forallb_forall in F.
  intros b Hb. apply F, Z.leb_le in Hb. lia.
Qed.
