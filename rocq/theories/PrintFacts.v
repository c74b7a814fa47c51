(** Lemmas about the pretty printer, for C70. *)
From Coq Require Import ZArith NArith List String Ascii Bool Lia HexadecimalString HexadecimalN.
From Verif Require Import CInt Tree State Eval Lexer Grammar Typename Repl Session SpecLexer SpecScan ScanFacts LexerFacts LexerFacts2 SpecSyntax SpecNames NameFacts ExprFacts
  VarFacts SpecRun RunFacts SpecVars StepsFacts SpecSession SessionFacts SessionFacts2 SpecPrint.
Import ListNotations.
Local Open Scope string_scope.
Local Open Scope Z_scope.
Local Open Scope list_scope.

(** ** Addresses *)
Definition lower (c : ascii) : bool := existsb (Ascii.eqb c) (letters_of "0123456789abcdef").
Lemma lower_digit c : lower c = true -> digit_is 16 c (digit_value c).
Proof.
  unfold lower, letters_of. rewrite existsb_exists. intros (d & Hd & He). apply Ascii.eqb_eq in He. subst d.
  cbn in Hd. repeat destruct Hd as [<-|Hd]; [..|destruct Hd]; unfold digit_is; vm_compute (digit_value _);
    match goal with |- exists n, _ /\ ?z = _ /\ _ => exists (Z.to_nat z) end; (split; [cbn; lia|]); (split; [reflexivity|]); left; reflexivity.
Qed.
Lemma hex_lower d : forallb lower (list_ascii_of_string (NilEmpty.string_of_uint d)) = true.
Proof. induction d; cbn [NilEmpty.string_of_uint list_ascii_of_string forallb]; rewrite ?IHd; auto. Qed.
Lemma hex_acc d : forall p, fold_left (fun v c => (16 * v + digit_value c)%Z) (list_ascii_of_string (NilEmpty.string_of_uint d)) (Z.pos p) =
  Z.pos (Pos.of_hex_uint_acc d p).
Proof.
  induction d; intros p; cbn [NilEmpty.string_of_uint list_ascii_of_string fold_left Pos.of_hex_uint_acc]; [reflexivity|..];
    rewrite <- IHd; f_equal; vm_compute (digit_value _); lia.
Qed.
Lemma hex_value d : digits_value 16 (list_ascii_of_string (NilEmpty.string_of_uint d)) = Z.of_N (N.of_hex_uint d).
Proof.
  unfold digits_value, N.of_hex_uint. induction d; cbn [NilEmpty.string_of_uint list_ascii_of_string fold_left Pos.of_hex_uint]; [reflexivity|exact IHd|..];
    exact (hex_acc d _).
Qed.
Lemma hex_no_zero d l : Hexadecimal.nzhead d <> Hexadecimal.D0 l.
Proof. intros H. induction d; cbn in H; try discriminate H. exact (IHd H). Qed.

Lemma print_address v : 0 <= v -> address_text v (print_pointer v).
Proof.
  intros Hv. unfold print_pointer. destruct (Z.eqb_spec v 0) as [->|N]; [left; split; reflexivity|]. right. split; [exact N|].
  set (n := Z.to_N v). assert (Hn : Z.of_N n = v) by (unfold n; apply Z2N.id, Hv).
  assert (Hu : N.to_hex_uint n = Hexadecimal.nzhead (N.to_hex_uint n)).
  { pose proof (Unsigned.to_of (N.to_hex_uint n)) as T. rewrite Unsigned.of_to in T. unfold Hexadecimal.unorm in T.
    destruct (Hexadecimal.nzhead (N.to_hex_uint n)) eqn:Hz; try (exact T).
    exfalso. apply N. rewrite <- Hn. rewrite <- (Unsigned.of_to n), T. reflexivity. }
  assert (Hnz : N.to_hex_uint n <> Hexadecimal.Nil).
  { intros H. apply N. rewrite <- Hn, <- (Unsigned.of_to n), H. reflexivity. }
  assert (Hs : NilZero.string_of_uint (N.to_hex_uint n) = NilEmpty.string_of_uint (N.to_hex_uint n)) by (destruct (N.to_hex_uint n); congruence || reflexivity).
  exists (list_ascii_of_string (NilEmpty.string_of_uint (N.to_hex_uint n))). rewrite Hs.
  pose proof (hex_lower (N.to_hex_uint n)) as L. split; [|split; [|split; [|reflexivity]]].
  - replace v with (digits_value (Z.of_nat 16) (list_ascii_of_string (NilEmpty.string_of_uint (N.to_hex_uint n))));
      [|change (Z.of_nat 16) with 16; rewrite hex_value, Unsigned.of_to; exact Hn].
    apply (numeral_intro 16 lower lower_digit); [|exact L]. destruct (N.to_hex_uint n); congruence || discriminate.
  - apply Forall_forall. intros c Hc. rewrite forallb_forall in L. specialize (L c Hc). unfold lower in L. apply existsb_exists in L as (d & Hd & He).
    apply Ascii.eqb_eq in He. subst d. exact Hd.
  - intros l Hl. rewrite Hu in Hl. pose proof (hex_no_zero (N.to_hex_uint n)) as Z0.
    destruct (Hexadecimal.nzhead (N.to_hex_uint n)) eqn:Hz; try discriminate Hl. exact (Z0 u eq_refl).
Qed.

(** ** Notations are unique *)
Section Unique.
Variable base : nat.
Variable ok : ascii -> bool.
Hypothesis base2 : (1 < base)%nat.
Hypothesis ok_digit : forall c, ok c = true -> 0 <= digit_value c < Z.of_nat base.
Hypothesis ok_inj : forall c d, ok c = true -> ok d = true -> digit_value c = digit_value d -> c = d.
Hypothesis ok_zero : forall c, ok c = true -> digit_value c = 0 -> c = "0"%char.
Let value := digits_value (Z.of_nat base).
Lemma value_snoc l c : value (l ++ [c]) = Z.of_nat base * value l + digit_value c.
Proof. unfold value, digits_value. rewrite fold_left_app. reflexivity. Qed.
Lemma value_pos l : forallb ok l = true -> 0 <= value l.
Proof.
  induction l as [|c l IH] using rev_ind; intros F; [reflexivity|]. rewrite forallb_app in F. cbn in F. rewrite andb_true_r in F.
  apply andb_true_iff in F as [F1 F2]. rewrite value_snoc. specialize (IH F1). pose proof (ok_digit c F2). nia.
Qed.
Lemma value_zero l : forallb ok l = true -> value l = 0 -> (forall r, l <> "0"%char :: r) -> l = [].
Proof.
  induction l as [|c l IH] using rev_ind; intros F V N; [reflexivity|]. rewrite forallb_app in F. cbn in F. rewrite andb_true_r in F.
  apply andb_true_iff in F as [F1 F2]. rewrite value_snoc in V. pose proof (value_pos l F1). pose proof (ok_digit c F2).
  assert (V1 : value l = 0) by nia. assert (V2 : digit_value c = 0) by lia. apply ok_zero in V2; [|exact F2]. subst c.
  destruct l as [|d l]; [now destruct (N [])|]. exfalso.
  assert (L : d :: l = []) by (apply IH; [exact F1|exact V1|]; intros r [= -> ->]; now destruct (N (r ++ ["0"%char]))). discriminate L.
Qed.
Lemma value_inj l : forall m, forallb ok l = true -> forallb ok m = true -> l <> [] -> m <> [] -> (forall r, l = "0"%char :: r -> r = []) ->
  (forall r, m = "0"%char :: r -> r = []) -> value l = value m -> l = m.
Proof.
  induction l as [|c l IH] using rev_ind; intros m F G Nl Nm Zl Zm V; [congruence|].
  destruct m as [|d m _] using rev_ind; [congruence|]. rewrite forallb_app in F, G. cbn in F, G. rewrite andb_true_r in F, G.
  apply andb_true_iff in F as [F1 F2]. apply andb_true_iff in G as [G1 G2]. rewrite !value_snoc in V.
  pose proof (ok_digit c F2). pose proof (ok_digit d G2).
  destruct (Z.div_mod_unique (Z.of_nat base) (value l) (value m) (digit_value c) (digit_value d)) as [V' D]; [left; lia|left; lia|exact V|]. apply ok_inj in D; [subst d|exact F2|exact G2]. f_equal.
  assert (Zl' : forall r, l <> "0"%char :: r) by (intros r ->; specialize (Zl _ eq_refl); destruct r; discriminate Zl).
  assert (Zm' : forall r, m <> "0"%char :: r) by (intros r ->; specialize (Zm _ eq_refl); destruct r; discriminate Zm).
  destruct l as [|a l].
  - symmetry. apply value_zero; [exact G1|rewrite <- V'; reflexivity|exact Zm'].
  - destruct m as [|b m].
    + apply value_zero; [exact F1|rewrite V'; reflexivity|exact Zl'].
    + apply IH; [exact F1|exact G1|discriminate|discriminate| | |exact V']; intros r J; [now destruct (Zl' r)|now destruct (Zm' r)].
Qed.
End Unique.

Lemma all_chars (P : ascii -> bool) : forallb (fun n => P (ascii_of_nat n)) (seq 0 256) = true -> forall c, P c = true.
Proof.
  intros F c. rewrite forallb_forall in F. rewrite <- (ascii_nat_embedding c). apply F. apply in_seq. pose proof (nat_ascii_bounded c). lia.
Qed.
Lemma D_range c : is_D c = true -> 0 <= digit_value c < Z.of_nat 10.
Proof.
  intros H. pose proof (all_chars (fun c => implb (is_D c) ((0 <=? digit_value c) && (digit_value c <? 10))) ltac:(vm_compute; reflexivity) c) as Q. cbv beta in Q. rewrite H in Q. cbn in Q.
  apply andb_true_iff in Q as [Q1 Q2]. lia.
Qed.
Lemma lower_range c : lower c = true -> 0 <= digit_value c < Z.of_nat 16.
Proof.
  intros H. pose proof (all_chars (fun c => implb (lower c) ((0 <=? digit_value c) && (digit_value c <? 16))) ltac:(vm_compute; reflexivity) c) as Q. cbv beta in Q. rewrite H in Q. cbn in Q.
  apply andb_true_iff in Q as [Q1 Q2]. lia.
Qed.
Lemma D_lower c : is_D c = true -> lower c = true.
Proof. intros H. pose proof (all_chars (fun c => implb (is_D c) (lower c)) ltac:(vm_compute; reflexivity) c) as Q. cbv beta in Q. rewrite H in Q. exact Q. Qed.
Definition from_value (z : Z) : ascii := nth (Z.to_nat z) (letters_of "0123456789abcdef") "000"%char.
Lemma lower_back c : lower c = true -> c = from_value (digit_value c).
Proof.
  intros H. pose proof (all_chars (fun c => implb (lower c) (Ascii.eqb c (from_value (digit_value c)))) ltac:(vm_compute; reflexivity) c) as Q. cbv beta in Q. rewrite H in Q.
  apply Ascii.eqb_eq. exact Q.
Qed.
Lemma lower_inj c d : lower c = true -> lower d = true -> digit_value c = digit_value d -> c = d.
Proof. intros Hc Hd E. rewrite (lower_back c Hc), (lower_back d Hd), E. reflexivity. Qed.
Lemma lower_zero c : lower c = true -> digit_value c = 0 -> c = "0"%char.
Proof. intros Hc E. rewrite (lower_back c Hc), E. reflexivity. Qed.

Lemma digit_is_value base c d : (base <= 16)%nat -> digit_is base c d -> d = digit_value c.
Proof.
  intros Hb (n & Hn & -> & H). assert (L : (n < 16)%nat) by lia. clear Hn Hb.
  do 16 (destruct n as [|n]; [destruct H as [[= <-]|[= <-]]; reflexivity|]). lia.
Qed.
Lemma digit_is_D c d : digit_is 10 c d -> is_D c = true.
Proof.
  intros (n & Hn & _ & H). do 10 (destruct n as [|n]; [destruct H as [[= <-]|[= <-]]; reflexivity|]). lia.
Qed.
Lemma numeral_is base l v : (base <= 16)%nat -> numeral base l v -> v = digits_value (Z.of_nat base) l.
Proof.
  intros Hb (_ & ds & F & ->). rewrite digits_place. f_equal. clear -F Hb. induction F as [|c d l ds H F IH]; [reflexivity|].
  cbn. f_equal; [apply (digit_is_value base); assumption|exact IH].
Qed.
Lemma numeral_D l v : numeral 10 l v -> forallb is_D l = true.
Proof. intros (_ & ds & F & _). induction F as [|c d l ds H F IH]; [reflexivity|]. cbn. rewrite (digit_is_D c d H). exact IH. Qed.

Lemma decimal_unique v out out' : decimal v out -> decimal v out' -> out = out'.
Proof.
  intros (ds & N & Z & ->) (ds' & N' & Z' & ->). assert (Q : ds = ds').
  { apply (value_inj 10 is_D); [lia|exact D_range|intros c d Hc Hd; apply lower_inj; apply D_lower; assumption|intros c Hc; apply lower_zero, D_lower, Hc| | | | |exact Z|exact Z'|].
    - exact (numeral_D _ _ N).
    - exact (numeral_D _ _ N').
    - apply N.
    - apply N'.
    - rewrite <- (numeral_is 10 _ _ ltac:(lia) N), <- (numeral_is 10 _ _ ltac:(lia) N'). reflexivity. }
  rewrite Q. reflexivity.
Qed.
Lemma lower_list ds : Forall (fun c => In c (letters_of "0123456789abcdef")) ds -> forallb lower ds = true.
Proof.
  intros F. apply forallb_forall. intros c Hc. rewrite Forall_forall in F. unfold lower. apply existsb_exists. exists c. split; [apply F, Hc|apply Ascii.eqb_refl].
Qed.
Lemma address_unique v out out' : address_text v out -> address_text v out' -> out = out'.
Proof.
  intros [[Z ->]|[Z (ds & N & L & Nz & ->)]] [[Z' ->]|[Z' (ds' & N' & L' & Nz' & ->)]]; try contradiction; [reflexivity|]. f_equal.
  apply (value_inj 16 lower); [lia|exact lower_range|exact lower_inj|exact lower_zero|apply lower_list, L|apply lower_list, L'|apply N|apply N'| | |].
  - intros r E. now destruct (Nz r).
  - intros r E. now destruct (Nz' r).
  - rewrite <- (numeral_is 16 _ _ ltac:(lia) N), <- (numeral_is 16 _ _ ltac:(lia) N'). reflexivity.
Qed.

(** ** Strings, pointers and structures *)
Scheme shown_ind2 := Induction for shown Sort Prop with shown_members_ind2 := Induction for shown_members Sort Prop.
Combined Scheme shown_mutind from shown_ind2, shown_members_ind2.

Lemma c_string_ok s t : forall fuel a, (List.length t < fuel)%nat -> ~ In "000"%char t ->
  (forall i, (i <= List.length t)%nat -> valid s (a + Z.of_nat i) 1 = true) ->
  (forall i c, nth_error t i = Some c -> mem s (a + Z.of_nat i) mod 256 = Z.of_N (N_of_ascii c)) ->
  mem s (a + Z.of_nat (List.length t)) mod 256 = 0 -> c_string s fuel a = Some t.
Proof.
  induction t as [|c t IH]; intros fuel a L N V M Z0; (destruct fuel as [|fuel]; [cbn in L; lia|]); cbn [c_string].
  - specialize (V 0%nat (le_n _)). cbn in V, Z0. rewrite Z.add_0_r in V, Z0. rewrite V, Z0. reflexivity.
  - pose proof (V 0%nat ltac:(lia)) as V0. change (Z.of_nat 0) with 0 in V0. rewrite Z.add_0_r in V0. rewrite V0.
    pose proof (M 0%nat c eq_refl) as M0. change (Z.of_nat 0) with 0 in M0. rewrite Z.add_0_r in M0. rewrite M0.
    assert (Nc : Z.of_N (N_of_ascii c) =? 0 = false).
    { apply Z.eqb_neq. intros Q. apply N. left. rewrite <- (ascii_N_embedding c). replace (N_of_ascii c) with 0%N by lia. reflexivity. }
    rewrite Nc. rewrite (IH fuel (a + 1)).
    + rewrite N2Z.id, ascii_N_embedding. reflexivity.
    + cbn in L. lia.
    + intros J. apply N. right. exact J.
    + intros i Hi. replace (a + 1 + Z.of_nat i) with (a + Z.of_nat (S i)) by lia. apply V. cbn. lia.
    + intros i d Hi. replace (a + 1 + Z.of_nat i) with (a + Z.of_nat (S i)) by lia. apply M. exact Hi.
    + replace (a + 1 + Z.of_nat (List.length t)) with (a + Z.of_nat (List.length (c :: t))) by (cbn [List.length]; lia). exact Z0.
Qed.

Lemma block_size s b : In b (blocks s) -> (Z.to_nat (b_size b) < all_bytes s)%nat.
Proof.
  unfold all_bytes. induction (blocks s) as [|d l IH]; intros J; [destruct J|]. destruct J as [->|J]; cbn [fold_right]; [lia|]. specialize (IH J). lia.
Qed.

Section Print.
Variable E : env.
Variable H : host.
Variable s : state.

Lemma text_string a t : text_at E s a t -> c_string s (all_bytes s) a = Some t.
Proof.
  intros (S & N & M & Z0). apply c_string_ok; auto.
  - destruct S as (b & Hb & L1 & L2 & _). pose proof (block_size s b Hb). lia.
  - intros i Hi. apply (storage_valid E). eapply storage_sub; [exact S| |]; lia.
Qed.

Lemma indent d : pp_print_indent d = List.concat (repeat (letters_of "    ") d).
Proof. induction d; cbn [pp_print_indent repeat List.concat]; [reflexivity|]. rewrite IHd. reflexivity. Qed.

Lemma pointer_value a : storage E s a 8 -> valid s a 8 = true /\ le_load (mem s) a 8 = unsigned_at (mem s) a 8 /\ 0 <= unsigned_at (mem s) a 8.
Proof.
  intros S. split; [apply (storage_valid E), S|]. split; [symmetry; apply unsigned_at_load|]. rewrite unsigned_at_load.
  generalize a 8%nat. intros x n. revert x. induction n as [|n IH]; intros x; cbn [le_load]; [lia|]. specialize (IH (x + 1)). pose proof (Z.mod_pos_bound (mem s x) 256 ltac:(lia)). lia.
Qed.

Definition each (d : nat) := fix each (l : list (string * tree)) : option Repl.text :=
  match l with
  | [] => Some []
  | (x, r) :: l =>
      match pp_1 H s r (S d), each l with
      | Some v, Some rest => Some (pp_print_indent (S d) ++ chars "." ++ chars x ++ chars " = " ++ v ++ [newline] ++ rest)
      | _, _ => None
      end
  end.
Lemma pp_compound decl ms b d : pp_1 H s (T_LIVE_COMPOUND decl ms b) d = match each d ms with Some m => Some (chars "{" ++ [newline] ++ m ++ chars "}") | None => None end.
Proof. reflexivity. Qed.

Lemma shown_pp : (forall d v out, shown E s d v out -> pp_1 H s v d = Some out) /\
  (forall d ms lines, shown_members E s d ms lines -> match d with O => True | S d => each d ms = Some lines end).
Proof.
  apply shown_mutind.
  - intros d c a arr n out Hc Hs Hd. rewrite <- (decimal_unique _ _ _ (print_decimal _) Hd). exact (pp_var E H s c a arr n Hc Hs).
  - intros d t a arr n out Hs Ht Ha. destruct (pointer_value a Hs) as (V & L & P). cbn [pp_1 pp_live_var]. rewrite V, L.
    rewrite <- (address_unique _ _ _ (print_address _ P) Ha). destruct Ht as [Ht|Ht].
    + destruct t; try reflexivity. destruct c; try reflexivity. congruence.
    + rewrite Ht, Z.eqb_refl. destruct t; try reflexivity. destruct c; reflexivity.
  - intros d a arr n out t Hs Ht Ha Hx. destruct (pointer_value a Hs) as (V & L & P). cbn [pp_1 pp_live_var]. rewrite V, L.
    replace (unsigned_at (mem s) a 8 =? 0) with false by (symmetry; apply Z.eqb_neq, Ht). rewrite (text_string _ _ Hx).
    rewrite <- (address_unique _ _ _ (print_address _ P) Ha). reflexivity.
  - intros d decl ms b lines _ IH. rewrite pp_compound. rewrite IH. reflexivity.
  - intros [|d]; [exact I|reflexivity].
  - intros [|d] x v ms out lines _ IH _ IH2; [exact I|]. cbn [each]. fold (each d). rewrite IH, IH2, indent. reflexivity.
Qed.

Lemma shown_print v out : shown E s 0 v out -> pretty_print H s v = Some out.
Proof. intros S. rewrite <- (proj1 shown_pp _ _ _ S). inversion S; reflexivity. Qed.
End Print.

Section Lines.
Variable E : env.
Variable H : host.

(** The line [x;]: what is printed is what pretty_print makes of the meaning of [x]. *)
Lemma name_line se x line v : typed H se [IDENTIFIER x; p ";"] line -> means (se_eval se) (string_of_list_ascii x) v -> v <> NULL ->
  exists st, l_cond st = INITIAL /\ forall r, repl_round E H se line r <->
    r = match pretty_print H (se_eval se) v with Some out => Continues (out ++ [newline]) (mksession st (se_names se) (se_eval se)) | None => Ends UB end.
Proof.
  intros Ty M Nv.
  assert (Nt : ~ In typedef_token (line_text (LExp (One (Id x))))) by (cbn; intros [J|[J|[]]]; discriminate J).
  assert (Ni : forall s, LExp (One (Id x)) <> LInclude s) by discriminate.
  destruct (line_answers E H se (LExp (One (Id x))) line _ _ _ _ Ty I Ni ltac:(discriminate) Nt eq_refl eq_refl) as (st & C & A).
  rewrite set_fresh_same in A. exists st. split; [exact C|]. intros r. rewrite A.
  assert (R : runs E (se_eval se) (T_EXPR_LIST (CHAIN_HEAD [T_IDENTIFIER (string_of_list_ascii x)])) (Ok v (se_eval se)))
    by (apply run_single, innermost; split; [exact M|reflexivity]).
  destruct (pretty_print H (se_eval se) v) as [out|] eqn:P.
  - apply (answers_value E H (mksession st (se_names se) (se_eval se)) _ v); assumption.
  - split.
    + intros [s' R'|v' s' out' R' N' P'|v' s' R' P'|r' R' S']; pose proof (runs_fun _ _ _ _ _ R R') as U; try (injection U as <- <-); try congruence.
    + intros ->. apply (an_unprintable E H (mksession st (se_names se) (se_eval se)) _ v (se_eval se)); assumption.
Qed.

Lemma shown_line se x line v out : typed H se [IDENTIFIER x; p ";"] line -> means (se_eval se) (string_of_list_ascii x) v ->
  shown E (se_eval se) 0 v out ->
  exists st, l_cond st = INITIAL /\ forall r, repl_round E H se line r <-> r = Continues (out ++ [line_feed]) (mksession st (se_names se) (se_eval se)).
Proof.
  intros Ty M S. destruct (name_line se x line v Ty M) as (st & C & A); [intros ->; inversion S|]. rewrite (shown_print E H _ _ _ S) in A.
  exists st. split; [exact C|exact A].
Qed.

Lemma dangling_line se x line a arr n : typed H se [IDENTIFIER x; p ";"] line ->
  means (se_eval se) (string_of_list_ascii x) (T_LIVE_VAR (D_T_PTR (D_T D_T_CHAR)) a arr n) -> storage E (se_eval se) a 8 ->
  let q := unsigned_at (mem (se_eval se)) a 8 in q <> 0 -> (forall b, In b (blocks (se_eval se)) -> ~ (b_base b <= q /\ q + 1 <= b_base b + b_size b)) ->
  forall r, repl_round E H se line r <-> r = Ends UB.
Proof.
  intros Ty M S q Nq Nb r. destruct (name_line se x line _ Ty M) as (st & C & A); [discriminate|]. rewrite A. clear A.
  destruct (pointer_value E (se_eval se) a S) as (V & L & _). cbn [pretty_print pp_1 pp_live_var]. rewrite V, L. fold q.
  replace (q =? 0) with false by (symmetry; apply Z.eqb_neq, Nq). unfold all_bytes. cbn [c_string].
  replace (valid (se_eval se) q 1) with false; [reflexivity|]. symmetry. destruct (valid (se_eval se) q 1) eqn:Hv; [|reflexivity]. exfalso.
  unfold valid in Hv. apply existsb_exists in Hv as (b & Hb & Hi). apply (Nb b Hb). unfold in_block in Hi. apply andb_true_iff in Hi as [H1 H2]. lia.
Qed.

(** A string constant. *)
Lemma string_line se x line : typed H se [CONST_STRING x; p ";"] line ->
  exists st, l_cond st = INITIAL /\ forall r, repl_round E H se line r <->
    r = Continues (letters_of """" ++ x ++ letters_of """" ++ [line_feed]) (mksession st (se_names se) (se_eval se)).
Proof.
  intros Ty.
  assert (Nt : ~ In typedef_token (line_text (LExp (One (Str x))))) by (cbn; intros [J|[J|[]]]; discriminate J).
  assert (Ni : forall s, LExp (One (Str x)) <> LInclude s) by discriminate.
  destruct (line_answers E H se (LExp (One (Str x))) line _ _ _ _ Ty I Ni ltac:(discriminate) Nt eq_refl eq_refl) as (st & C & A).
  rewrite set_fresh_same in A. exists st. split; [exact C|]. intros r. rewrite A.
  assert (R : runs E (se_eval se) (T_EXPR_LIST (CHAIN_HEAD [T_STRING (string_of_list_ascii x)])) (Ok (T_STRING (string_of_list_ascii x)) (se_eval se))).
  { apply run_single. split; [discriminate|]. exists 1%nat. reflexivity. }
  replace (letters_of """" ++ x ++ letters_of """" ++ [line_feed]) with ((letters_of """" ++ x ++ letters_of """") ++ [newline]) by (rewrite <- !app_assoc; reflexivity).
  apply (answers_value E H (mksession st (se_names se) (se_eval se)) _ (T_STRING (string_of_list_ascii x))); [exact R|discriminate|].
  cbn [pretty_print pp_1]. unfold chars. rewrite list_ascii_of_string_of_list_ascii. reflexivity.
Qed.
End Lines.

(** ** Reading a printed string *)
Lemma choose_spec rs s r n : choose rs s = Some (r, n) -> In r rs /\ longest (r_re r) s = Some n /\ (0 < n)%nat.
Proof.
  induction rs as [|q rs IH]; cbn [choose]; [discriminate|].
  destruct (longest (r_re q) s) as [[|m]|] eqn:L; try (intros C; destruct (IH C) as (A & B); split; [right; exact A|exact B]).
  destruct (choose rs s) as [[q' k]|] eqn:Q.
  - destruct (S m <? k)%nat; intros [= <- <-]; [destruct (IH eq_refl) as (A & B); split; [right; exact A|exact B]|]. split; [left; reflexivity|]. split; [exact L|lia].
  - intros [= <- <-]. split; [left; reflexivity|]. split; [exact L|lia].
Qed.
Lemma cstr_shorter l : (List.length (cstr l) <= List.length l)%nat /\ (List.length (cstr l) = List.length l -> cstr l = l /\ Forall (fun c => c <> "000"%char) l).
Proof.
  induction l as [|c l [I1 I2]]; [split; auto|]. cbn [cstr]. destruct (Ascii.eqb_spec c "000") as [->|N]; cbn [List.length]; [split; [lia|discriminate]|].
  split; [lia|]. intros Q. destruct I2 as [J F]; [lia|]. rewrite J. split; [reflexivity|constructor; assumption].
Qed.

Lemma octal_nil : octal_char [] = "000"%char.
Proof. vm_compute. reflexivity. Qed.

Section Reread.
Variable T : target.
Variable tn : list ascii -> bool.

Lemma yylex_step fuel st c t : yylex T tn (S fuel) st (c :: t) =
  match choose (active T tn (l_cond st)) (c :: t) with
  | None => yylex T tn fuel st t
  | Some (r, n) => match r_act r (firstn n (c :: t)) st with
    | Emit k st' => Token k st' (skipn n (c :: t))
    | Skip st' => yylex T tn fuel st' (skipn n (c :: t))
    | LexErr => Error
    end
  end.
Proof. reflexivity. Qed.
Lemma yylex_none fuel st : yylex T tn fuel st [] = EndOfInput st.
Proof. destruct fuel; reflexivity. Qed.
Lemma yylex_fuel st c t : yylex T tn 0 st (c :: t) = LexFuel.
Proof. reflexivity. Qed.

Lemma string_shrinks fuel : forall st t k st' rest, l_cond st = str_lit -> yylex T tn fuel st t = Token k st' rest ->
  exists o, k = CONST_STRING (l_buf st ++ o) /\ (List.length o + 1 + List.length rest <= List.length t)%nat /\
    ((List.length o + 1 + List.length rest = List.length t)%nat -> t = o ++ dq :: rest /\ Forall ordinary o).
Proof.
  induction fuel as [|fuel IH]; intros st t k st' rest C Y; destruct t as [|c t]; rewrite ?yylex_none, ?yylex_fuel in Y; try discriminate Y.
  rewrite yylex_step in Y.
  destruct (choose (active T tn (l_cond st)) (c :: t)) as [[r n]|] eqn:Q.
  2:{ destruct (IH _ _ _ _ _ C Y) as (o & K & L & M). exists o. split; [exact K|]. cbn [List.length]. split; [lia|]. lia. }
  rewrite C, strs_rules in Q. apply choose_spec in Q as (I & L & P).
  pose proof (longest_spec (c :: t) (r_re r)) as S. rewrite L in S. destruct S as (Ln & Mt & _).
  set (u := firstn n (c :: t)) in *. set (v := skipn n (c :: t)) in *.
  assert (Huv : c :: t = u ++ v) by (symmetry; apply firstn_skipn). assert (Hu : List.length u = n) by (apply firstn_length_le; exact Ln).
  rewrite Huv. clearbody u v. clear Huv.
  assert (Esc : forall d, (1 < n)%nat \/ d = "000"%char -> yylex T tn fuel (sl_append_char d st) v = Token k st' rest ->
    exists o, k = CONST_STRING (l_buf st ++ o) /\ (List.length o + 1 + List.length rest <= List.length (u ++ v))%nat /\
      ((List.length o + 1 + List.length rest = List.length (u ++ v))%nat -> u ++ v = o ++ dq :: rest /\ Forall ordinary o)).
  { intros d Hd Y'. destruct (IH (sl_append_char d st) _ _ _ _ C Y') as (o & K & Lo & Mo). unfold sl_append_char, sl_append_str in K. cbn [l_buf] in K. rewrite <- app_assoc in K.
    exists (cstr [d] ++ o). split; [exact K|]. rewrite !app_length. assert (Lc : (List.length (cstr [d]) < n)%nat).
    { destruct Hd as [Hd| ->]; [|cbn; lia]. destruct (cstr_shorter [d]) as [A _]. cbn [List.length] in A. lia. }
    split; [lia|]. lia. }
  assert (Two : forall f, matches (Cat (Cls (Ascii.eqb bs)) (Cls f)) u -> (1 < n)%nat).
  { intros f M. apply matches_cat in M as (a & b & -> & M1 & M2). apply matches_char in M1 as ->. apply matches_cls in M2 as (d & -> & _). cbn in Hu. lia. }
  repeat destruct I as [<-|I]; [..|destruct I]; cbn [r_act r_re run_rule n_rule t_rule oct_rule esc_rule end_rule bad_rule nl_rule] in Y, Mt; try discriminate Y.
  - apply matches_star_cls in Mt. destruct (IH (sl_append_str u st) _ _ _ _ C Y) as (o & K & Lo & Mo). cbn [sl_append_str l_buf] in K. rewrite <- app_assoc in K.
    exists (cstr u ++ o). split; [exact K|]. rewrite !app_length. destruct (cstr_shorter u) as [A B]. split; [lia|]. intros Q.
    destruct B as [B1 B2]; [lia|]. rewrite B1. destruct Mo as [M1 M2]; [lia|]. rewrite M1, app_assoc. split; [reflexivity|]. apply Forall_app. split; [|exact M2].
    apply Forall_forall. intros x Hx. rewrite forallb_forall in Mt. specialize (Mt x Hx). rewrite negb_true_iff, !orb_false_iff, !Ascii.eqb_neq in Mt.
    rewrite Forall_forall in B2. specialize (B2 x Hx). unfold ordinary. tauto.
  - eapply Esc; [|exact Y]. left. eapply Two, Mt.
  - eapply Esc; [|exact Y]. left. eapply Two, Mt.
  - eapply Esc; [|exact Y]. destruct n as [|[|n]]; [lia| |left; lia]. right. destruct u as [|a [|b u]]; try discriminate Hu. exact octal_nil.
  - eapply Esc; [|exact Y]. left. eapply Two, Mt.
  - injection Y as <- <- <-. apply matches_char in Mt as ->. exists []. rewrite app_nil_r. split; [reflexivity|]. cbn. split; [lia|auto].
Qed.

Lemma reread fuel st x : l_cond st = INITIAL -> (List.length x + 2 <= fuel)%nat ->
  (exists st' rest, yylex T tn fuel st (dq :: x ++ [dq]) = Token (CONST_STRING x) st' rest) <-> Forall ordinary x.
Proof.
  intros C F. split.
  - intros (st' & rest & Y). destruct fuel as [|fuel]; [lia|].
    pose proof (yylex_skip T tn fuel st [dq] (x ++ [dq]) (mkrule [INITIAL] (Cls (Ascii.eqb dq)) (fun _ st => Skip (mklex str_lit []))) (mklex str_lit [])) as Hs.
    cbn [app] in Hs. rewrite Hs in Y; [|discriminate| |reflexivity].
    2:{ rewrite C, choose_dq. cbn [choose r_re]. rewrite longest_char, Ascii.eqb_refl. reflexivity. }
    destruct (string_shrinks fuel (mklex str_lit []) _ _ _ _ eq_refl Y) as (o & K & L & M). cbn [l_buf app] in K. injection K as <-.
    rewrite app_length in L, M. cbn [List.length] in L, M. apply M. lia.
  - intros O. do 2 eexists. apply lex_string; [exact C| |exact F]. clear F. induction O as [|c x Hc O IH]; constructor; assumption.
Qed.
End Reread.
