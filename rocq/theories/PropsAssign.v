(** C72: what assigning to a pointer does (src/evaluate.c:1206-1254). *)
From Coq Require Import ZArith List String Ascii Bool Lia.
From Verif Require Import CInt Tree SpecResolver SpecTypes State Eval Lexer Grammar Typename Repl Session SpecLexer SpecScan ScanFacts SpecSyntax SpecNames NameFacts
  SpecRun RunFacts SpecExpr SpecVars SpecCalls SpecPtr VarFacts PtrFacts StepsFacts TestEnv TestRun TestScan SpecSession SpecPrint SpecAssign AssignFacts PropsStruct PropsSession PropsPrint.
Import ListNotations.
Local Open Scope string_scope.
Local Open Scope Z_scope.
Local Open Scope list_scope.

(** C72.  [p = e] for an integer expression: the absolute value of the number modulo 2^64 is stored in the eight bytes of the pointer, and
    nothing else changes. *)
Theorem C72_number : forall E rho e s l x t a arr n, plain s l (T_IDENTIFIER x) -> means s x (T_LIVE_VAR (D_T_PTR t) a arr n) ->
  storage E s a 8 -> computed e -> SpecPtr.reads E s rho e ->
  match denote rho e with
  | Some v => exists s', runs E s (T_ASSIGN l (T_IDENTIFIER x) (syntax e)) (Ok (T_INTEGER v) s') /\
      only_writes E s a 8 s' /\ unsigned_at (mem s') a 8 = Z.abs v mod 2 ^ 64
  | None => exists s', runs E s (T_ASSIGN l (T_IDENTIFIER x) (syntax e)) (Abort s') /\ only_gc E s s'
  end.
Proof. exact assign_ptr_expr. Qed.
Print Assumptions C72_number.

(** The same for any left side that is a pointer and any right side that has an integer value. *)
Theorem C72_integer : forall E s l lhs rhs t a arr n s1 v s2, plain s l lhs ->
  runs E s lhs (Ok (T_LIVE_VAR (D_T_PTR t) a arr n) s1) -> runs E s1 rhs (Ok (T_INTEGER v) s2) -> storage E s2 a 8 ->
  exists s3, runs E s (T_ASSIGN l lhs rhs) (Ok (T_INTEGER v) s3) /\ only_writes E s2 a 8 s3 /\ unsigned_at (mem s3) a 8 = Z.abs v mod 2 ^ 64.
Proof. exact assign_ptr_int. Qed.
Print Assumptions C72_integer.

(** From a variable of whatever type eight bytes are copied; so for two pointers both point to the same place. *)
Theorem C72_copy : forall E s l lhs rhs t a arr n s1 u b arr' n' s2, plain s l lhs ->
  runs E s lhs (Ok (T_LIVE_VAR (D_T_PTR t) a arr n) s1) -> runs E s1 rhs (Ok (T_LIVE_VAR u b arr' n') s2) -> storage E s2 a 8 -> storage E s2 b 8 ->
  exists s3, runs E s (T_ASSIGN l lhs rhs) (Ok (T_LIVE_VAR u b arr' n') s3) /\ only_writes E s2 a 8 s3 /\
    unsigned_at (mem s3) a 8 = unsigned_at (mem s2) b 8.
Proof. exact assign_ptr_var. Qed.
Print Assumptions C72_copy.

(** [p = &e] makes [p] point to the variable [e]. *)
Theorem C72_address : forall E s l x e t a arr n u b m s1, reachable E s -> plain s l (T_IDENTIFIER x) ->
  means s x (T_LIVE_VAR (D_T_PTR t) a arr n) -> storage E s a 8 -> runs E s e (Ok (T_LIVE_VAR u b false m) s1) -> only_gc E s s1 -> 0 <= b < 2 ^ 64 ->
  out_of_memory E s (T_ASSIGN l (T_IDENTIFIER x) (T_ADDR e)) 16 \/
  exists q s', runs E s (T_ASSIGN l (T_IDENTIFIER x) (T_ADDR e)) (Ok (T_LIVE_VAR (D_T_PTR u) q false 0) s') /\
    unsigned_at (mem s') a 8 = b /\ (forall c, storage E s c 1 -> c < a \/ a + 8 <= c -> mem s' c = mem s c) /\
    (forall c k, storage E s c k -> storage E s' c k) /\ (forall y, lookup s' y = lookup s y).
Proof. exact assign_address. Qed.
Print Assumptions C72_address.

(** [p = "..."] makes [p] point to a new copy of the text that belongs to the current scope ([text_assigned], SpecAssign.v). *)
Theorem C72_text : forall E s l lhs rhs t a arr n s1 x s2, reachable E s -> plain s l lhs ->
  runs E s lhs (Ok (T_LIVE_VAR (D_T_PTR t) a arr n) s1) -> runs E s1 rhs (Ok (T_STRING x) s2) -> storage E s2 a 8 -> ~ In "000"%char (letters_of x) ->
  out_of_memory E s (T_ASSIGN l lhs rhs) (Z.of_nat (String.length x) + 1) \/
  exists q s3, runs E s (T_ASSIGN l lhs rhs) (Ok (T_STRING x) s3) /\ text_assigned E s2 a x q s3.
Proof. exact assign_text. Qed.
Print Assumptions C72_text.

(** Any other value stops the line with an error and nothing is stored. *)
Theorem C72_other : forall E s l lhs rhs t a arr n s1 v s2, plain s l lhs ->
  runs E s lhs (Ok (T_LIVE_VAR (D_T_PTR t) a arr n) s1) -> runs E s1 rhs (Ok v s2) ->
  match v with NULL | T_STRING _ | T_LIVE_VAR _ _ _ _ | T_INTEGER _ => False | _ => True end ->
  runs E s (T_ASSIGN l lhs rhs) (Die s2).
Proof. exact assign_ptr_other. Qed.
Print Assumptions C72_other.

(** At the REPL: the line [x = "..."] prints the text between quotes, and the line [x] then prints the new address and the same text. *)
Theorem C72_session : forall E H se x y line line2 a arr n, reachable E (se_eval se) ->
  typed H se [IDENTIFIER x; p "="; CONST_STRING y; p ";"] line -> typed H se [IDENTIFIER x; p ";"] line2 ->
  means (se_eval se) (string_of_list_ascii x) (T_LIVE_VAR (D_T_PTR (D_T D_T_CHAR)) a arr n) -> storage E (se_eval se) a 8 -> new_nodes_plain (se_eval se) ->
  (exists s', refuses E (Z.of_nat (List.length y) + 1) s' /\ forall r, repl_round E H se line r <-> r = Ends (NoMemory (Z.of_nat (List.length y) + 1) s')) \/
  exists st q s' out, l_cond st = INITIAL /\ text_assigned E (set_fresh (fun i => i + 2) (se_eval se)) a (string_of_list_ascii y) q s' /\ address_text q out /\
    forall outs se', repl_rounds E H se [line; line2] outs se' <->
      outs = letters_of """" ++ y ++ letters_of """" ++ [line_feed] ++ out ++ letters_of " (""" ++ y ++ letters_of """)" ++ [line_feed] /\
      se' = mksession st (se_names se) s'.
Proof. exact text_session. Qed.
Print Assumptions C72_session.

(** ** What does not hold *)

(** [char *p; char *q; int n = 5;] *)
Definition char_ptr (l : Z) (x : string) : tree := T_DECL l (specs [T_CHAR_TS]) (CHAIN_HEAD [T_POINTER (id x)]).
Definition ptrs : state := after [char_ptr (-60) "p"; char_ptr (-61) "q"; init_int (-62) "n" (num 5)].
(** After [if (1) { p = "hi"; } 1+1;] the text is gone, although [p] has not changed and can be used: the line [p;] has undefined behaviour. *)
Definition inner : tree := T_IF (num 1) (CHAIN_HEAD [T_ASSIGN (-63) (id "p") (T_STRING "hi")]) NULL.
Definition program : tree := CHAIN_HEAD [inner; T_BINOP ADD (num 1) (num 1)].
Definition later : state := final_state (outcome_body ptrs program).
Theorem C72_text_lasts_refuted : exists E s a q s', reachable E s /\
  means s "p" (T_LIVE_VAR (D_T_PTR (D_T D_T_CHAR)) a false 0) /\ storage E s a 8 /\ new_nodes_plain s /\
  runs_body E s (CHAIN_HEAD [T_IF (T_INTEGER 1) (CHAIN_HEAD [T_ASSIGN (-63) (T_IDENTIFIER "p") (T_STRING "hi")]) NULL; T_BINOP ADD (T_INTEGER 1) (T_INTEGER 1)])
    (Ok tt s') /\
  means s' "p" (T_LIVE_VAR (D_T_PTR (D_T D_T_CHAR)) a false 0) /\ storage E s' a 8 /\ unsigned_at (mem s') a 8 = q /\ q <> 0 /\ ~ storage E s' q 1 /\
  forall H se line r, se_eval se = s' -> typed H se [IDENTIFIER (txt "p"); p ";"] line -> repl_round E H se line r <-> r = Ends UB.
Proof.
  exists env0, ptrs, 4112, 4208, later.
  assert (M : means later "p" (T_LIVE_VAR (D_T_PTR (D_T D_T_CHAR)) 4112 false 0)) by (apply means_lookup; [discriminate|vm_compute; reflexivity]).
  assert (S : storage env0 later 4112 8) by (apply storageb_ok; vm_compute; reflexivity).
  assert (Q : unsigned_at (mem later) 4112 8 = 4208) by (vm_compute; reflexivity).
  assert (F : forallb (fun b => b_base b + b_size b <=? 4208) (blocks later) = true) by (vm_compute; reflexivity).
  assert (P : zfind (-63) (ov_asn ptrs) = None /\ ov_asn ptrs = [(-62, id "n")]) by (split; vm_compute; reflexivity).
  rewrite forallb_forall in F.
  split; [apply reachable_after|]. split; [apply means_lookup; [discriminate|vm_compute; reflexivity]|].
  split; [apply storageb_ok; vm_compute; reflexivity|]. split.
  { intros l Hl. assert (Fr : fresh ptrs = 2) by (vm_compute; reflexivity). rewrite Fr in Hl. destruct P as [_ P]. rewrite P.
    cbn [zfind]. destruct (Z.eqb_spec l (-62)); [lia|reflexivity]. }
  split; [apply outcome_body_ok; vm_compute; reflexivity|]. split; [exact M|]. split; [exact S|]. split; [exact Q|]. split; [lia|]. split.
  - intros (b & Hb & H1 & H2 & _). apply F, Z.leb_le in Hb. lia.
  - intros H se line r Hse Ty. generalize dependent later. intros s M S Q F Hse. subst s.
    apply (C70_dangling env0 H se (txt "p") line 4112 false 0 Ty M S); rewrite Q; [lia|]. intros b Hb [H1 H2]. apply F, Z.leb_le in Hb. lia.
Qed.
Print Assumptions C72_text_lasts_refuted.

(** [p = 0-1;] stores 1, not 2^64 - 1. *)
Definition minus : tree := T_ASSIGN (-64) (id "p") (T_BINOP SUB (num 0) (num 1)).
Theorem C72_sign_refuted : exists E s a s', reachable E s /\ means s "p" (T_LIVE_VAR (D_T_PTR (D_T D_T_CHAR)) a false 0) /\ storage E s a 8 /\
  runs E s (T_ASSIGN (-64) (T_IDENTIFIER "p") (T_BINOP SUB (T_INTEGER 0) (T_INTEGER 1))) (Ok (T_INTEGER (-1)) s') /\
  unsigned_at (mem s') a 8 <> (-1) mod 2 ^ 64.
Proof.
  exists env0, ptrs, 4112, (final_state (outcome ptrs minus)).
  split; [apply reachable_after|]. split; [apply means_lookup; [discriminate|vm_compute; reflexivity]|].
  split; [apply storageb_ok; vm_compute; reflexivity|]. split; [apply (outcome_ok ptrs minus); vm_compute; reflexivity|].
  assert (V : unsigned_at (mem (final_state (outcome ptrs minus))) 4112 8 = 1) by (vm_compute; reflexivity). rewrite V. discriminate.
Qed.
Print Assumptions C72_sign_refuted.

(** [p = p + 0;] can change [p]: addresses from 2^63 on are read as negative numbers. *)
Definition high : state := final_state (outcome ptrs (T_ASSIGN (-65) (id "p") (num (2 ^ 63 + 1)))).
Definition plus_zero : tree := T_ASSIGN (-66) (id "p") (T_BINOP ADD (id "p") (num 0)).
Theorem C72_plus_zero_refuted : exists E s a v s', reachable E s /\ means s "p" (T_LIVE_VAR (D_T_PTR (D_T D_T_CHAR)) a false 0) /\ storage E s a 8 /\
  runs E s (T_ASSIGN (-66) (T_IDENTIFIER "p") (T_BINOP ADD (T_IDENTIFIER "p") (T_INTEGER 0))) (Ok v s') /\
  unsigned_at (mem s') a 8 <> unsigned_at (mem s) a 8.
Proof.
  exists env0, high, 4112, (num (1 - 2 ^ 63)), (final_state (outcome high plus_zero)).
  split; [apply reachable_outcome, reachable_after|]. split; [apply means_lookup; [discriminate|vm_compute; reflexivity]|].
  split; [apply storageb_ok; vm_compute; reflexivity|]. split; [apply (outcome_ok high plus_zero); vm_compute; reflexivity|].
  assert (V : unsigned_at (mem (final_state (outcome high plus_zero))) 4112 8 = 2 ^ 63 - 1) by (vm_compute; reflexivity).
  assert (W : unsigned_at (mem high) 4112 8 = 2 ^ 63 + 1) by (vm_compute; reflexivity). rewrite V, W. discriminate.
Qed.
Print Assumptions C72_plus_zero_refuted.

(** [p = n;] for an int [n] with the value 5 does not store 5: eight bytes are copied, of which four are not those of [n]. *)
Definition from_int : tree := T_ASSIGN (-67) (id "p") (id "n").
Theorem C72_from_int_refuted : exists E s a b v s', reachable E s /\ means s "p" (T_LIVE_VAR (D_T_PTR (D_T D_T_CHAR)) a false 0) /\ storage E s a 8 /\
  means s "n" (T_LIVE_VAR (D_T D_T_INT) b false 0) /\ value_at s D_T_INT b = 5 /\
  runs E s (T_ASSIGN (-67) (T_IDENTIFIER "p") (T_IDENTIFIER "n")) (Ok v s') /\ unsigned_at (mem s') a 8 <> 5.
Proof.
  exists env0, ptrs, 4112, 4176, (T_LIVE_VAR (D_T D_T_INT) 4176 false 0), (final_state (outcome ptrs from_int)).
  split; [apply reachable_after|]. split; [apply means_lookup; [discriminate|vm_compute; reflexivity]|].
  split; [apply storageb_ok; vm_compute; reflexivity|]. split; [apply means_lookup; [discriminate|vm_compute; reflexivity]|].
  split; [vm_compute; reflexivity|]. split; [apply (outcome_ok ptrs from_int); vm_compute; reflexivity|].
  assert (V : unsigned_at (mem (final_state (outcome ptrs from_int))) 4112 8 = 12297829379609722885) by (vm_compute; reflexivity). rewrite V. discriminate.
Qed.
Print Assumptions C72_from_int_refuted.

(** ** Examples *)

(** [p = n * 1000 - 7;], [p = &n;], [p = "a text";] and [p = q;] with the pointers above. *)
Definition times : expr := Bin SUB (Bin MUL (Var "n") (Lit 1000)) (Lit 7).
Example C72_nontrivial_number : plain ptrs (-70) (id "p") /\ computed times /\ SpecPtr.reads env0 ptrs (fun _ => 5) times /\
  denote (fun _ => 5) times = Some 4993 /\ unsigned_at (mem (final_state (outcome ptrs (T_ASSIGN (-70) (id "p") (syntax times))))) 4112 8 = 4993.
Proof.
  split; [left; vm_compute; reflexivity|]. split; [exact I|]. split; [|split; vm_compute; reflexivity].
  intros y [[J|[]]|[]]. cbn in J. subst y. apply numberb_ok. vm_compute. reflexivity.
Qed.
Example C72_nontrivial_address : exists q, plain ptrs (-71) (id "p") /\ runs env0 ptrs (id "n") (Ok (T_LIVE_VAR (D_T D_T_INT) 4176 false 0) ptrs) /\ only_gc env0 ptrs ptrs /\
  let t := T_ASSIGN (-71) (id "p") (T_ADDR (id "n")) in
  runs env0 ptrs t (Ok (T_LIVE_VAR (D_T_PTR (D_T D_T_INT)) q false 0) (final_state (outcome ptrs t))) /\
  unsigned_at (mem (final_state (outcome ptrs t))) 4112 8 = 4176.
Proof.
  exists 4208. split; [left; vm_compute; reflexivity|]. split; [apply innermost; split; [apply means_lookup; [discriminate|vm_compute; reflexivity]|reflexivity]|].
  split; [apply ExprFacts.gc_only_refl|]. split; [apply outcome_ok|]; vm_compute; reflexivity.
Qed.
Example C72_nontrivial_text : plain ptrs (-72) (id "p") /\ storage env0 ptrs 4112 8 /\ ~ In "000"%char (letters_of "a text") /\
  let t := T_ASSIGN (-72) (id "p") (T_STRING "a text") in
  ~ out_of_memory env0 ptrs t 7 /\ unsigned_at (mem (final_state (outcome ptrs t))) 4112 8 = 4208 /\ storage env0 (final_state (outcome ptrs t)) 4208 7.
Proof.
  split; [left; vm_compute; reflexivity|]. split; [apply storageb_ok; vm_compute; reflexivity|].
  split; [cbn; intuition discriminate|]. cbv zeta. split; [|split; [vm_compute; reflexivity|apply storageb_ok; vm_compute; reflexivity]].
  apply (not_oom _ _ (T_STRING "a text")). vm_compute. reflexivity.
Qed.
Example C72_nontrivial_session : typed host0 (session_start ptrs) [IDENTIFIER (txt "p"); p "="; CONST_STRING (txt "a b"); p ";"] (txt "p = ""a b"";") /\
  typed host0 (session_start ptrs) [IDENTIFIER (txt "p"); p ";"] (txt "p;") /\
  means ptrs (string_of_list_ascii (txt "p")) (T_LIVE_VAR (D_T_PTR (D_T D_T_CHAR)) 4112 false 0).
Proof.
  split; [|split; [|apply means_lookup; [discriminate|vm_compute; reflexivity]]].
  - apply typed_start; [vm_compute; reflexivity| |discriminate|reflexivity].
    apply (wr_token _ _ (txt "p") _ (txt " = ""a b"";")); [apply spelledb_ok; vm_compute; reflexivity|]. apply wr_space; [cbn; tauto|].
    apply (wr_token _ _ (txt "=") _ (txt " ""a b"";")); [apply spelledb_ok; vm_compute; reflexivity|]. apply wr_space; [cbn; tauto|].
    apply (wr_token _ _ (dq :: txt "a b" ++ [dq]) _ (txt ";")); [|exact (laid_ok _ [pu ";"] false eq_refl)].
    apply sp_string. repeat (apply dec_char; [repeat split; discriminate|]). constructor.
  - apply typed_start; [vm_compute; reflexivity|apply (laid_ok _ [nm "p"; pu ";"] false); vm_compute; reflexivity|discriminate|reflexivity].
Qed.
