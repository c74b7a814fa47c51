(** C62: the scanner on whole texts (src/lex.m4).  [T] is the scanner (REPL or script), [tn] decides which names are type names. *)
From Coq Require Import ZArith List String Ascii Bool Lia.
From Verif Require Import Lexer SpecLexer SpecScan LexerFacts3 ScanFacts TestScan.
Import ListNotations.
Local Open Scope string_scope.
Local Open Scope list_scope.

(** Every text of a sequence of tokens is read as this sequence: each token is written in one of its spellings, white space and ignored
    words may be between them, and they may touch where the next character cannot continue the token. *)
Theorem C62_text : forall T tn l s fuel, writes tn false l s -> (List.length s < fuel)%nat -> tokens T tn fuel lex_start s = Some l.
Proof. exact scan_text. Qed.
Print Assumptions C62_text.

(** With a blank after each token nothing else is needed. *)
Theorem C62_blanks : forall T tn l us fuel, Forall2 (fun t u => spelled tn t u [" "%char]) l us -> Forall (fun t => tag_word t = false) l ->
  (List.length (flat_map (fun u => u ++ [" "%char]) us) < fuel)%nat ->
  tokens T tn fuel lex_start (flat_map (fun u => u ++ [" "%char]) us) = Some l.
Proof. intros T tn l us fuel H F Hf. apply scan_text; [|exact Hf]. apply writes_blank; assumption. Qed.
Print Assumptions C62_blanks.

(** An attribute is skipped up to the last two closing parentheses in a row on its line, with everything that is between. *)
Theorem C62_attribute : forall T tn fuel st blanks mid rest, l_cond st = INITIAL ->
  Forall (fun c => c = " "%char \/ c = tab) blanks -> ~ In nl mid -> last_close rest ->
  yylex T tn (S fuel) st (txt "__attribute__" ++ blanks ++ txt "((" ++ mid ++ txt "))" ++ rest) = yylex T tn fuel st rest.
Proof.
  intros T tn fuel st blanks mid rest Hst Hb Hm Hr. rewrite <- (lex_attribute T tn fuel st blanks mid rest Hst Hb Hm Hr). unfold attribute.
  rewrite <- !app_assoc. reflexivity.
Qed.
Print Assumptions C62_attribute.

(** So it is false that skipping an attribute leaves the text after its own parentheses: [int x;] between two attributes is lost. *)
Definition two_attributes : list ascii := txt "__attribute__((unused)) int x; int y __attribute__((unused));".
Theorem C62_attribute_own_refuted : exists T tn fuel st mid rest, l_cond st = INITIAL /\ ~ In ")"%char mid /\ ~ In nl (mid ++ rest) /\
  yylex T tn fuel st (txt "__attribute__((" ++ mid ++ txt "))" ++ rest) = Token (PUNCT ";") st [] /\
  yylex T tn fuel st rest = Token (KW "INT") st (txt " x; int y __attribute__((unused));").
Proof.
  exists REPL_T, (fun _ => false), 100%nat, lex_start, (txt "unused"), (txt " int x; int y __attribute__((unused));").
  split; [reflexivity|]. split; [intros H; cbn in H; intuition discriminate|]. split; [intros H; cbn in H; intuition discriminate|].
  split; vm_compute; reflexivity.
Qed.
Print Assumptions C62_attribute_own_refuted.

(** [while(a->b!=-12&&c)x<<=(T)3;struct while{int*p;};] with [T] a type name. *)
Definition types (x : list ascii) : bool := if list_eq_dec ascii_dec x ["T"%char] then true else false.
Definition items : list (token * list ascii * list ascii) :=
  [kw "while" "WHILE"; pu "("; nm "a"; sy "->" (KW "PTR_ACCESS"); nm "b"; sy "!=" (KW "NOT_EQUATE"); nu (-12); sy "&&" (KW "BOOL_OP_AND"); nm "c"; pu ")";
   nm "x"; sy "<<=" (KW "LSHIFT_ASSIGN"); pu "("; ty "T"; pu ")"; nu 3; pu ";"; sp (kw "struct" "STRUCT"); nm "while"; pu "{"; kw "int" "INT"; pu "*"; nm "p";
   pu ";"; pu "}"; pu ";"].
Example C62_nontrivial : writes types false (map (fun p => fst (fst p)) items) (txt "while(a->b!=-12&&c)x<<=(T)3;struct while{int*p;};").
Proof. change (txt "while(a->b!=-12&&c)x<<=(T)3;struct while{int*p;};") with (text_of items). apply laid_ok. vm_compute. reflexivity. Qed.
(** A string, a character, numbers and an ignored word; a blank after each. *)
Example C62_nontrivial_blanks :
  Forall2 (fun t u => spelled types t u [" "%char])
    [CONST_STRING (txt "a" ++ [nl]); INTEGER 255; INTEGER 97; FLOAT_CST (txt "-1.50"); PUNCT "-"; INTEGER 7]
    [dq :: txt "a\n" ++ [dq]; txt "0xfF"; txt "'a'"; txt "-1.50"; txt "-"; txt "007"].
Proof.
  assert (Ne : name_ends [" "%char]) by (cbn; rewrite name_char_iff; discriminate).
  assert (D : forall c, is_D c = true -> decimal_digit c) by (intros c; apply LexerFacts.decimal_digit_iff).
  repeat apply Forall2_cons; try apply Forall2_nil.
  - apply (sp_string types (txt "a\n") (txt "a" ++ [nl])). apply dec_char; [repeat split; discriminate|]. apply dec_newline. constructor.
  - apply (sp_hex types (txt "fF") 255); [|exact Ne]. apply (LexerFacts.numeral_intro 16 is_X LexerFacts.X_digit_is); [discriminate|reflexivity].
  - apply (sp_char types [Plain "a"%char]); [repeat constructor; discriminate|discriminate|repeat constructor; discriminate|reflexivity].
  - apply (sp_float types ["-"%char] ["1"%char] (txt "50")); [right; reflexivity|discriminate|discriminate|repeat constructor; apply D; reflexivity|repeat constructor; apply D; reflexivity|exact Ne].
  - apply (sp_symbol types "-" (PUNCT "-") "-=>0123456789"); [cbn; tauto|]. cbn. intuition discriminate.
  - apply (sp_decimal types (txt "007") 7); [apply (LexerFacts.numeral_intro 10 is_D LexerFacts.D_digit_is); [discriminate|reflexivity]| |exact Ne].
    apply number_endsb_ok. reflexivity.
Qed.
Example C62_nontrivial_attribute : last_close (txt " int f(int);") /\
  tokens CSCRIPT_T types 100 lex_start (txt "__attribute__ ((pure)) int f(int);") =
    Some [KW "INT"; IDENTIFIER ["f"%char]; PUNCT "("; KW "INT"; PUNCT ")"; PUNCT ";"].
Proof.
  split; [|vm_compute; reflexivity]. intros w w' v H Hw _ E.
  assert (L : (List.length w <= 12)%nat) by (assert (L := f_equal (@List.length ascii) H); rewrite app_length in L; cbn in L; lia).
  assert (W : w = firstn (List.length w) (txt " int f(int);")) by (rewrite H, firstn_app, firstn_all, Nat.sub_diag; cbn [firstn]; rewrite app_nil_r; reflexivity).
  assert (V : skipn (List.length w) (")"%char :: ")"%char :: w) = [")"%char; ")"%char]).
  { assert (L2 := f_equal (@List.length ascii) E). rewrite app_length in L2. cbn [List.length] in L2.
    rewrite E. rewrite skipn_app. replace (List.length w - List.length v)%nat with O by lia. replace (List.length w) with (List.length v) by lia.
    rewrite skipn_all. reflexivity. }
  destruct (List.length w) as [|n] eqn:N; [destruct w; [contradiction|discriminate]|]. rewrite W in V.
  do 12 (destruct n as [|n]; [discriminate V|]). lia.
Qed.
