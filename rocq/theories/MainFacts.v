(** Lemmas for C71. *)
From Coq Require Import ZArith List String Ascii Bool Lia Arith.
From Verif Require Import CInt Tree State Eval Repl Session CScript Main SpecMain.
Import ListNotations.
Local Open Scope string_scope.
Local Open Scope nat_scope.
Local Open Scope list_scope.

Lemma text_eqb_spec a b : text_eqb a b = true <-> a = b.
Proof. unfold text_eqb. destruct (list_eq_dec ascii_dec a b); split; congruence. Qed.
Lemma text_eqb_false a b : text_eqb a b = false <-> a <> b.
Proof. unfold text_eqb. destruct (list_eq_dec ascii_dec a b); split; congruence. Qed.

(** Between two elements, with [l] to come. *)
Definition boundary (g : gstate) (l : list arg) : Prop :=
  g_next g = [] /\ g_first g <= g_last g <= g_optind g /\ g_optind g <= List.length (g_argv g) /\ skipn (g_optind g) (g_argv g) = l.
(** In the element [a], with the letters [t] and then [l] to come. *)
Definition inside (g : gstate) (a : arg) (t : text) (l : list arg) : Prop :=
  g_next g = t /\ t <> [] /\ g_first g <= g_last g <= g_optind g /\ skipn (g_optind g) (g_argv g) = a :: l.

Lemma skipn_len A (l : list A) i : List.length (skipn i l) = List.length l - i.
Proof. apply skipn_length. Qed.
Lemma skipn_cons A (l : list A) i a r : skipn i l = a :: r -> nth_error l i = Some a /\ skipn (S i) l = r /\ i < List.length l.
Proof.
  revert i. induction l as [|b l IH]; intros [|i] H; cbn in *; try discriminate.
  - injection H as -> ->. repeat split; lia.
  - destruct (IH i H) as (H1 & H2 & H3). repeat split; auto; lia.
Qed.
Lemma skipn_none A (l : list A) i : i <= List.length l -> skipn i l = [] -> nth_error l i = None.
Proof. intros L H. apply nth_error_None. pose proof (skipn_len _ l i) as Q. rewrite H in Q. cbn in Q. lia. Qed.

Lemma exchange_boundary g l : boundary g l -> boundary (exchange g) l.
Proof.
  intros (N & F & L & S). unfold exchange, boundary, slice. cbn [g_next g_first g_last g_optind g_argv].
  set (pre := firstn (g_first g) (g_argv g) ++ firstn (g_optind g - g_last g) (skipn (g_last g) (g_argv g)) ++
              firstn (g_last g - g_first g) (skipn (g_first g) (g_argv g))).
  replace (firstn (g_first g) (g_argv g) ++ firstn (g_optind g - g_last g) (skipn (g_last g) (g_argv g)) ++
           firstn (g_last g - g_first g) (skipn (g_first g) (g_argv g)) ++ skipn (g_optind g) (g_argv g))
    with (pre ++ skipn (g_optind g) (g_argv g)) by (unfold pre; rewrite <- !app_assoc; reflexivity).
  assert (P : List.length pre = g_optind g).
  { unfold pre. rewrite !app_length, !firstn_length, !skipn_length. lia. }
  split; [exact N|]. split; [lia|]. split; [rewrite app_length; lia|].
  rewrite skipn_app, P, Nat.sub_diag, skipn_all2 by lia. exact S.
Qed.

(** The elements that are skipped. *)
Fixpoint operands (l : list arg) : list arg := match l with a :: l' => if nonoption (a_text a) then operands l' else l | [] => [] end.
Lemma skip_ok l : forall i v, skipn i v = l -> i <= List.length v ->
  skipn (skip_nonoptions l i) v = operands l /\ i <= skip_nonoptions l i <= List.length v.
Proof.
  induction l as [|a l IH]; intros i v H L; cbn; [split; [exact H|lia]|].
  destruct (nonoption (a_text a)); [|split; [exact H|lia]].
  destruct (skipn_cons _ _ _ _ _ H) as (_ & H2 & H3). destruct (IH (S i) v H2) as [P Q]; [lia|]. split; [exact P|lia].
Qed.
Lemma operand_first l a r : operands l = a :: r -> nonoption (a_text a) = false.
Proof. induction l as [|b l IH]; cbn; [discriminate|]. destruct (nonoption (a_text b)) eqn:N; [exact IH|]. intros H. injection H as <- <-. exact N. Qed.


(** The part of [advance] before the dashes are looked for. *)
Definition settle (g : gstate) : gstate :=
  if negb (g_first g =? g_last g) && negb (g_last g =? g_optind g) then exchange g
  else if negb (g_last g =? g_optind g) then mkg (g_argv g) (g_optind g) [] (g_optind g) (g_last g) else g.
Definition skipped (g : gstate) : gstate :=
  let i := skip_nonoptions (skipn (g_optind g) (g_argv g)) (g_optind g) in mkg (g_argv g) i [] (g_first g) i.
Lemma settle_ok g l : boundary g l -> g_next (settle g) = [] /\ g_first (settle g) <= g_optind (settle g) /\ g_optind (settle g) <= List.length (g_argv (settle g)) /\
  skipn (g_optind (settle g)) (g_argv (settle g)) = l.
Proof.
  intros B. unfold settle. destruct (negb (g_first g =? g_last g) && negb (g_last g =? g_optind g)).
  - apply exchange_boundary in B. destruct B as (N & F & L & S). repeat split; auto; lia.
  - destruct B as (N & F & L & S). destruct (negb (g_last g =? g_optind g)); cbn; repeat split; auto; lia.
Qed.
Lemma skipped_ok g l : boundary g l -> boundary (skipped (settle g)) (operands l) /\ g_last (skipped (settle g)) = g_optind (skipped (settle g)).
Proof.
  intros B. destruct (settle_ok g l B) as (N & F & L & S). unfold skipped. rewrite S.
  destruct (skip_ok l (g_optind (settle g)) (g_argv (settle g)) S L) as [P Q].
  split; [|reflexivity]. split; [reflexivity|]. cbn. split; [lia|]. split; [lia|exact P].
Qed.
Lemma advance_eq g : g_next g = [] -> advance g =
  let g := skipped (settle g) in
  let i := g_optind g in
  let argc := List.length (g_argv g) in
  let g := match nth_error (g_argv g) i with
           | Some a =>
               if text_eqb (a_text a) dashes then
                 let g := mkg (g_argv g) (S i) [] (g_first g) i in
                 let g := if negb (g_first g =? g_last g) then exchange g else mkg (g_argv g) (S i) [] (S i) (g_last g) in
                 mkg (g_argv g) argc [] (g_first g) argc
               else g
           | None => g
           end in
  match nth_error (g_argv g) (g_optind g) with
  | Some a => (true, mkg (g_argv g) (g_optind g) (tl (a_text a)) (g_first g) (g_last g))
  | None => (false, if g_first g =? g_last g then g else mkg (g_argv g) (g_first g) [] (g_first g) (g_last g))
  end.
Proof. intros N. unfold advance. rewrite N. reflexivity. Qed.

Lemma advance_end g l : boundary g l -> operands l = [] \/ (exists a r, operands l = a :: r /\ a_text a = dashes) -> fst (advance g) = false.
Proof.
  intros B O. rewrite (advance_eq g) by apply B. destruct (skipped_ok g l B) as [(N & F & L & S) _]. set (g1 := skipped (settle g)) in *. cbv zeta.
  destruct O as [O|(a & r & O & D)].
  - rewrite O in S. pose proof (skipn_none _ _ _ L S) as Q. rewrite Q, Q. reflexivity.
  - rewrite O in S. destruct (skipn_cons _ _ _ _ _ S) as (Q & S2 & Lt). rewrite Q, D.
    replace (text_eqb dashes dashes) with true by (symmetry; apply text_eqb_spec; reflexivity). cbn [g_argv g_optind].
    cbn [g_first g_last]. destruct (negb (g_first g1 =? g_optind g1)).
    + assert (X : boundary (exchange (mkg (g_argv g1) (Datatypes.S (g_optind g1)) [] (g_first g1) (g_optind g1))) r).
      { apply exchange_boundary. repeat split; cbn [g_next g_first g_last g_optind g_argv]; auto; try discriminate; lia. }
      assert (Len : List.length (g_argv (exchange (mkg (g_argv g1) (Datatypes.S (g_optind g1)) [] (g_first g1) (g_optind g1)))) <= List.length (g_argv g1)).
      { unfold exchange, slice. cbn [g_argv g_first g_last g_optind]. rewrite !app_length, !firstn_length, !skipn_length. lia. }
      rewrite (proj2 (nth_error_None _ _)) by exact Len. reflexivity.
    + cbn [g_argv]. rewrite (proj2 (nth_error_None _ _)) by lia. reflexivity.
Qed.
Lemma advance_option g l a r t : boundary g l -> operands l = a :: r -> a_text a <> dashes -> a_text a = "-"%char :: t -> t <> [] ->
  exists g', advance g = (true, g') /\ inside g' a t r.
Proof.
  intros B O D Ha Ht. rewrite (advance_eq g) by apply B. destruct (skipped_ok g l B) as [(N & F & L & S) E]. set (g1 := skipped (settle g)) in *. cbv zeta.
  rewrite O in S. destruct (skipn_cons _ _ _ _ _ S) as (Q & S2 & Lt). rewrite Q. apply text_eqb_false in D. rewrite D, Q, Ha. cbn [tl].
  eexists. split; [reflexivity|]. repeat split; cbn [g_next g_first g_last g_optind g_argv]; auto; try discriminate; lia.
Qed.
Lemma getopt_advance g g' : advance g = (true, g') -> g_next g' <> [] -> getopt g = getopt g'.
Proof.
  intros A N. unfold getopt. rewrite A. replace (advance g') with (true, g'); [reflexivity|]. unfold advance. destruct (g_next g'); [congruence|reflexivity].
Qed.

Definition arg_letter (c : ascii) : Prop := In c (word "lIs").
Lemma getopt_flag g a c t l : inside g a (c :: t) l -> In c (word "vTD") ->
  exists g', getopt g = (Opt c [], g') /\ (t = [] -> boundary g' l) /\ (t <> [] -> inside g' a t l).
Proof.
  intros (N & _ & F & S) C. destruct (skipn_cons _ _ _ _ _ S) as (Q & S2 & Lt). unfold getopt, advance. rewrite N. cbv iota. rewrite N.
  replace (is_in c flags) with true by (cbn in C; intuition (subst; reflexivity)). eexists. split; [reflexivity|].
  split; intros T; [subst t|destruct t as [|d t]; [congruence|]]; repeat split; cbn [g_next g_first g_last g_optind g_argv]; auto; try discriminate; lia.
Qed.
Lemma arg_class c : In c (word "lIs") -> is_in c flags = false /\ is_in c with_arg = true.
Proof. cbn. intuition (subst; reflexivity). Qed.
Lemma getopt_attached g a c t l : inside g a (c :: t) l -> In c (word "lIs") -> t <> [] ->
  exists g', getopt g = (Opt c t, g') /\ boundary g' l /\ skipn (g_optind g' - 1) (g_argv g') = a :: l.
Proof.
  intros (N & _ & F & S) C T. destruct (skipn_cons _ _ _ _ _ S) as (Q & S2 & Lt). unfold getopt, advance. rewrite N. cbv iota. rewrite N.
  destruct (arg_class c C) as [-> ->]. destruct t as [|d t]; [congruence|]. eexists. split; [reflexivity|].
  split; [repeat split; cbn [g_next g_first g_last g_optind g_argv]; auto; try discriminate; lia|]. cbn [g_optind g_argv]. rewrite Nat.sub_succ, Nat.sub_0_r. exact S.
Qed.
Lemma getopt_next g a c b l : inside g a [c] (b :: l) -> In c (word "lIs") ->
  exists g', getopt g = (Opt c (a_text b), g') /\ boundary g' l /\ skipn (g_optind g' - 1) (g_argv g') = b :: l.
Proof.
  intros (N & _ & F & S) C. destruct (skipn_cons _ _ _ _ _ S) as (Q & S2 & Lt). destruct (skipn_cons _ _ _ _ _ S2) as (Q' & S3 & Lt').
  unfold getopt, advance. rewrite N. cbv iota. rewrite N.
  destruct (arg_class c C) as [-> ->]. cbn [g_argv]. rewrite Q'. eexists. split; [reflexivity|].
  split; [repeat split; cbn [g_next g_first g_last g_optind g_argv]; auto; try discriminate; lia|]. cbn [g_optind g_argv]. rewrite Nat.sub_succ, Nat.sub_0_r. exact S2.
Qed.
Lemma getopt_missing g a c : inside g a [c] [] -> In c (word "lIs") -> exists g', getopt g = (Bad, g').
Proof.
  intros (N & _ & F & S) C. destruct (skipn_cons _ _ _ _ _ S) as (Q & S2 & Lt).
  unfold getopt, advance. rewrite N. cbv iota. rewrite N. destruct (arg_class c C) as [-> ->]. cbn [g_argv].
  rewrite (skipn_none _ _ _ Lt S2). eexists. reflexivity.
Qed.
Lemma getopt_unknown g a c t l : inside g a (c :: t) l -> ~ In c (word "vTDlIs") -> exists g', getopt g = (Bad, g').
Proof.
  intros (N & _ & F & S) C. unfold getopt, advance. rewrite N. cbv iota. rewrite N.
  replace (is_in c flags) with false.
  2:{ symmetry. destruct (is_in c flags) eqn:X; [|reflexivity]. exfalso. apply C. apply existsb_exists in X as (y & Y & Z). apply Ascii.eqb_eq in Z as ->.
      cbn in Y |- *. tauto. }
  replace (is_in c with_arg) with false.
  2:{ symmetry. destruct (is_in c with_arg) eqn:X; [|reflexivity]. exfalso. apply C. apply existsb_exists in X as (y & Y & Z). apply Ascii.eqb_eq in Z as ->.
      cbn in Y |- *. tauto. }
  eexists. reflexivity.
Qed.

Section Args.
Variable dlopen : list text -> text -> bool.
Variable LIBM_SO : text.
Notation carried := (SpecMain.carried dlopen LIBM_SO).
Notation parse_args := (Main.parse_args dlopen LIBM_SO).

(** What main does with the result of parse_args. *)
Definition acts (r : args_end) : action :=
  match r with
  | Exits n => Stops n
  | Returns o argv i (Some f) => Runs_script o f (skipn (i - 1) argv)
  | Returns o _ _ None => Starts_repl o
  | NoFuel => OutOfFuel
  end.

Lemma library_ok before x : match open_library dlopen LIBM_SO before x with
  | Some l => exists w, opened dlopen LIBM_SO before x w /\ l = before ++ [w]
  | None => refused dlopen LIBM_SO before x end.
Proof.
  unfold open_library. set (n := if text_eqb x (chars "m") then LIBM_SO else x).
  assert (T : tried LIBM_SO x n (word "lib" ++ n ++ word ".so")).
  { exists n. split; [|split; reflexivity]. unfold n. destruct (text_eqb x (chars "m")) eqn:M.
    - left. apply text_eqb_spec in M. split; [exact M|reflexivity].
    - right. apply text_eqb_false in M. split; [exact M|reflexivity]. }
  unfold concat_strings. change (chars "lib") with (word "lib"). change (chars ".so") with (word ".so"). rewrite <- app_assoc.
  destruct (dlopen before n) eqn:D; [exists n; split; [exists n, (word "lib" ++ n ++ word ".so"); auto|reflexivity]|].
  destruct (dlopen before (word "lib" ++ n ++ word ".so")) eqn:D2.
  - exists (word "lib" ++ n ++ word ".so"). split; [|reflexivity]. exists n, (word "lib" ++ n ++ word ".so"). auto.
  - exists n, (word "lib" ++ n ++ word ".so"). auto.
Qed.

Definition size (l : list arg) : nat := S (List.length l + List.length (flat_map a_text l)).
Lemma size_cons a l : size (a :: l) = S (List.length (a_text a) + size l).
Proof. unfold size. cbn. rewrite app_length. lia. Qed.
Lemma operands_size l : size (operands l) <= size l.
Proof. induction l as [|a l IH]; cbn [operands]; [lia|]. destruct (nonoption (a_text a)); rewrite ?size_cons in *; lia. Qed.
Lemma operands_command l os e : command (operands l) os e -> command l os e.
Proof.
  induction l as [|a l IH]; cbn; [auto|]. destruct (nonoption (a_text a)) eqn:N; [|auto]. intros H. apply co_operand; [|auto].
  unfold nonoption in N. destruct (a_text a) as [|c t]; [right; intros t; discriminate|]. destruct (Ascii.eqb c "-") eqn:C.
  - apply Ascii.eqb_eq in C as ->. destruct t; [left; reflexivity|discriminate N].
  - right. intros t' X. injection X as -> _. discriminate C.
Qed.
Lemma option_text t : nonoption t = false -> exists t', t = "-"%char :: t' /\ t' <> [].
Proof.
  unfold nonoption. destruct t as [|c t]; [discriminate|]. destruct (Ascii.eqb c "-") eqn:C; [|discriminate]. apply Ascii.eqb_eq in C as ->.
  destruct t as [|d t]; [discriminate|]. intros _. exists (d :: t). split; [reflexivity|discriminate].
Qed.

Definition at_boundary (fuel : nat) : Prop := forall o g l, boundary g l -> size l <= fuel ->
  exists os e, command l os e /\ carried o os e (acts (parse_args fuel o g)).
Definition at_inside (fuel : nat) : Prop := forall o g a t l, inside g a t l -> List.length t + size l <= fuel ->
  exists os e, letters a t l os e /\ carried o os e (acts (parse_args fuel o g)).

Lemma to_boundary fuel : at_inside fuel -> at_boundary fuel.
Proof.
  intros I o g l B Sz. assert (P : forall fuel', fuel = fuel' -> 0 < fuel') by (unfold size in Sz; lia). pose proof (operands_size l) as Z.
  assert (Done_case : command (operands l) [] Interactive -> fst (advance g) = false ->
    exists os e, command l os e /\ carried o os e (acts (parse_args fuel o g))).
  { intros C A. exists [], Interactive. split; [apply operands_command, C|]. destruct fuel as [|fuel]; [specialize (P _ eq_refl); lia|].
    cbn [Main.parse_args]. unfold getopt. destruct (advance g) as [b g']. cbn in A. subst b. cbn. constructor. }
  destruct (operands l) as [|a r] eqn:O.
  - apply Done_case; [constructor|]. apply (advance_end g l B). left. exact O.
  - pose proof (option_text _ (operand_first l a r O)) as (t & Ha & Ht). destruct (text_eqb (a_text a) dashes) eqn:D.
    + apply text_eqb_spec in D. apply Done_case; [apply co_stop; exact D|]. apply (advance_end g l B). right. exists a, r. auto.
    + apply text_eqb_false in D. destruct (advance_option g l a r t B O D Ha Ht) as (g' & A & In').
      assert (L : List.length t + size r <= fuel) by (rewrite size_cons, Ha in Z; cbn in Z; lia).
      destruct (I o g' a t r In' L) as (os & e & Le & Ca). exists os, e. split.
      * apply operands_command. rewrite O. apply (co_letters a t); [exact Ha|exact Ht| |exact Le]. intros ->. apply D. exact Ha.
      * destruct fuel as [|fuel]; [specialize (P _ eq_refl); lia|]. cbn [Main.parse_args] in Ca |- *. rewrite (getopt_advance g g' A); [exact Ca|].
        destruct In' as (N & _). congruence.
Qed.
Lemma all_inside fuel : at_inside fuel.
Proof.
  induction fuel as [|fuel IH]; intros o g a t l I Sz; [unfold size in Sz; lia|]. pose proof (to_boundary fuel IH) as B.
  destruct t as [|c t]; [destruct I as (_ & T & _); congruence|]. cbn [List.length] in Sz.
  destruct (in_dec ascii_dec c (word "vTDlIs")) as [K|K].
  2:{ destruct (getopt_unknown g a c t l I K) as (g' & G). exists [], Usage. split; [apply le_unknown, K|]. cbn [Main.parse_args]. rewrite G. constructor. }
  assert (K' : In c (word "vTD") \/ In c (word "lIs")) by (cbn in K |- *; tauto). clear K. destruct K' as [K|K].
  - destruct (getopt_flag g a c t l I K) as (g' & G & G1 & G2).
    assert (Next : forall o', exists os e, letters a t l os e /\ carried o' os e (acts (parse_args fuel o' g'))).
    { intros o'. destruct t as [|d t].
      - destruct (B o' g' l (G1 eq_refl)) as (os & e & C & R); [cbn in Sz; lia|]. exists os, e. split; [apply le_end, C|exact R].
      - apply IH; [apply G2; discriminate|cbn in Sz |- *; lia]. }
    destruct K as [<-|[<-|[<-|[]]]].
    + exists [], Version. split; [apply le_version|]. cbn [Main.parse_args]. rewrite G. constructor.
    + destruct (Next (mkset (libs o) (inc_dirs o) true (dot o))) as (os & e & Le & R). exists (Dump :: os), e. split; [apply le_dump, Le|].
      cbn [Main.parse_args]. rewrite G. apply ca_dump. exact R.
    + destruct (Next (mkset (libs o) (inc_dirs o) (print_ast o) true)) as (os & e & Le & R). exists (Dot :: os), e. split; [apply le_dot, Le|].
      cbn [Main.parse_args]. rewrite G. apply ca_dot. exact R.
  - assert (Take : forall x v l' g', getopt g = (Opt c x, g') -> boundary g' l' -> skipn (g_optind g' - 1) (g_argv g') = v -> size l' <= fuel ->
      exists os e, taken c x v (command l') os e /\ carried o os e (acts (parse_args (S fuel) o g))).
    { intros x v l' g' G Bo V S'. cbn [Main.parse_args]. rewrite G. destruct K as [<-|[<-|[<-|[]]]]; cbn [Ascii.eqb Bool.eqb].
      - pose proof (library_ok (libs o) x) as L. destruct (open_library dlopen LIBM_SO (libs o) x) as [ls|].
        + destruct L as (w & L & ->). destruct (B (mkset (libs o ++ [w]) (inc_dirs o) (print_ast o) (dot o)) g' l' Bo S') as (os & e & C & R).
          exists (Library x :: os), e. split; [apply ta_library; auto|]. eapply ca_opened; [exact L|exact R].
        + destruct (B o g' l' Bo S') as (os & e & C & R). exists (Library x :: os), e. split; [apply ta_library; auto|]. apply ca_refused, L.
      - destruct (B (mkset (libs o) (preprocessor_add_include_dir (inc_dirs o) x) (print_ast o) (dot o)) g' l' Bo S') as (os & e & C & R).
        exists (Include x :: os), e. split; [apply ta_include; auto|]. apply ca_include. exact R.
      - exists [], (Script x v). split; [apply ta_script; reflexivity|]. cbn [acts]. rewrite V. constructor. }
    destruct t as [|d t].
    + destruct l as [|b l].
      * destruct (getopt_missing g a c I K) as (g' & G). exists [], Usage. split; [apply le_missing, K|]. cbn [Main.parse_args]. rewrite G. constructor.
      * destruct (getopt_next g a c b l I K) as (g' & G & Bo & V).
        destruct (Take _ _ l g' G Bo V) as (os & e & T & R); [rewrite size_cons in Sz; lia|]. exists os, e. split; [apply le_next; auto|exact R].
    + destruct (getopt_attached g a c (d :: t) l I K) as (g' & G & Bo & V); [discriminate|].
      destruct (Take _ _ l g' G Bo V) as (os & e & T & R); [cbn in Sz; lia|]. exists os, e. split; [apply le_attached; auto; discriminate|exact R].
Qed.

Lemma carried_fun o os e r r' : carried o os e r -> carried o os e r' -> r = r'.
Proof.
  assert (Tr : forall x y z y' z', tried LIBM_SO x y z -> tried LIBM_SO x y' z' -> y = y' /\ z = z').
  { intros x y z y' z' (n & H1 & -> & ->) (n' & H1' & -> & ->).
    assert (n = n') as -> by (destruct H1 as [[-> ->]|[X ->]], H1' as [[X' ->]|[X' ->]]; congruence). auto. }
  intros H. revert r'. induction H as [o x w os e r (y & z & T & O) _ IH|o x os e (y & z & T & O)|o x os e r _ IH|o os e r _ IH|o os e r _ IH|o|o|o f v|o]; intros r' H'.
  - inversion H' as [? ? w' ? ? ? (y' & z' & T' & O') R|? ? ? ? (y' & z' & T' & O')| | | | | | |]; subst; destruct (Tr _ _ _ _ _ T T') as [-> ->].
    + assert (w = w') as -> by intuition congruence. auto.
    + intuition congruence.
  - inversion H' as [? ? w' ? ? ? (y' & z' & T' & O') R|? ? ? ? (y' & z' & T' & O')| | | | | | |]; subst; destruct (Tr _ _ _ _ _ T T') as [-> ->].
    + intuition congruence.
    + reflexivity.
  - inversion H'; subst; auto.
  - inversion H'; subst; auto.
  - inversion H'; subst; auto.
  - inversion H'; auto.
  - inversion H'; auto.
  - inversion H'; auto.
  - inversion H'; auto.
Qed.

End Args.

Lemma taken_fun c x v (R : list item -> ending -> Prop) os e os' e' : (forall os e os' e', R os e -> R os' e' -> os = os' /\ e = e') ->
  taken c x v R os e -> taken c x v R os' e' -> os = os' /\ e = e'.
Proof. intros F H H'. destruct H; inversion H'; subst; try discriminate; auto; match goal with A : R _ _, B : R _ _ |- _ => destruct (F _ _ _ _ A B) as [-> ->] end; auto. Qed.
Lemma command_letters_fun n : (forall l os e os' e', size l <= n -> command l os e -> command l os' e' -> os = os' /\ e = e') /\
  (forall t a l os e os' e', List.length t + size l <= n -> letters a t l os e -> letters a t l os' e' -> os = os' /\ e = e').
Proof.
  induction n as [|n [IH1 IH2]]; [split; intros; unfold size in *; lia|].
  assert (L : forall t a l os e os' e', List.length t + size l <= n -> letters a t l os e -> letters a t l os' e' -> os = os' /\ e = e') by exact IH2.
  assert (C : forall l os e os' e', size l <= S n -> command l os e -> command l os' e' -> os = os' /\ e = e').
  { intros l os e os' e' Sz H H'.
    destruct H as [|a l D|a l os e O H|a t l os e D T1 T2 H]; inversion H' as [|? ? D'|? ? ? ? O' H2|? t' ? ? ? D' T1' T2' H2]; subst; auto; rewrite ?size_cons in Sz.
    - exfalso. rewrite D in O'. destruct O' as [O'|O']; [discriminate O'|apply (O' _ eq_refl)].
    - exfalso. rewrite D in D'. injection D' as <-. apply T2'. reflexivity.
    - exfalso. rewrite D' in O. destruct O as [O|O]; [discriminate O|apply (O _ eq_refl)].
    - apply (IH1 l); auto; lia.
    - exfalso. rewrite D' in O. destruct O as [O|O]; [injection O as ->; apply T1'; reflexivity|apply (O _ eq_refl)].
    - exfalso. rewrite D in D'. injection D' as ->. apply T2. reflexivity.
    - exfalso. rewrite D in O'. destruct O' as [O|O]; [injection O as ->; apply T1; reflexivity|apply (O _ eq_refl)].
    - rewrite D in D'. injection D' as <-. rewrite D in Sz. cbn in Sz. apply (L t a l); auto; lia. }
  split; [exact C|].
  intros t a l os e os' e' Sz H H'.
  assert (Cn : forall l, size l <= n -> forall os e os' e', command l os e -> command l os' e' -> os = os' /\ e = e') by (intros; eapply IH1; eauto).
  assert (X : forall c, In c (word "lIs") -> c = "v"%char \/ c = "T"%char \/ c = "D"%char \/ ~ In c (word "vTDlIs") -> False).
  { intros c I J. cbn in I, J. intuition (subst; discriminate). }
  destruct H as [a l os e H|a t l|a t l os e H|a t l os e H|a c t l os e I T H|a c b l os e I H|a c I|a c t l I].
  - inversion H'; subst. apply (C l); auto.
  - inversion H'; subst; auto; exfalso; try (eapply X; [eassumption|tauto]); match goal with J : ~ In _ _ |- _ => apply J; cbn; tauto end.
  - inversion H'; subst; try (exfalso; first [eapply X; [eassumption|tauto] | match goal with J : ~ In _ _ |- _ => apply J; cbn; tauto end]).
    match goal with A : letters a t l _ _ |- _ => destruct (L t a l os e _ _ ltac:(cbn in Sz; lia) H A) as [-> ->]; auto end.
  - inversion H'; subst; try (exfalso; first [eapply X; [eassumption|tauto] | match goal with J : ~ In _ _ |- _ => apply J; cbn; tauto end]).
    match goal with A : letters a t l _ _ |- _ => destruct (L t a l os e _ _ ltac:(cbn in Sz; lia) H A) as [-> ->]; auto end.
  - inversion H'; subst; try congruence; try (exfalso; eapply X; [eassumption|tauto]).
    eapply taken_fun; [apply (Cn l); cbn in Sz; lia|eassumption|eassumption].
  - inversion H'; subst; try congruence; try (exfalso; eapply X; [eassumption|tauto]).
    eapply taken_fun; [apply (Cn l); cbn in Sz; rewrite size_cons in Sz; lia|eassumption|eassumption].
  - inversion H'; subst; try congruence; auto; try (exfalso; eapply X; [eassumption|tauto]).
  - inversion H'; subst; auto; try (exfalso; first [eapply X; [eassumption|tauto] | apply I; cbn; tauto]).
Qed.
Lemma command_fun l os e os' e' : command l os e -> command l os' e' -> os = os' /\ e = e'.
Proof. apply (proj1 (command_letters_fun (size l))). lia. Qed.

(** The command line as a whole. *)
Lemma command_line dlopen LIBM_SO prog l : exists os e, command l os e /\ (forall os' e', command l os' e' -> os' = os /\ e' = e) /\
  forall r, carried dlopen LIBM_SO no_settings os e r <-> main_action dlopen LIBM_SO (prog :: l) = r.
Proof.
  assert (B : boundary (g_start (prog :: l)) l) by (repeat split; cbn; lia).
  assert (Sz : size l <= enough (prog :: l)) by (unfold enough, size; cbn; rewrite app_length; lia).
  destruct (to_boundary dlopen LIBM_SO _ (all_inside dlopen LIBM_SO _) no_settings _ _ B Sz) as (os & e & C & R).
  exists os, e. split; [exact C|]. split; [intros os' e' C'; destruct (command_fun _ _ _ _ _ C C'); auto|]. intros r. change (acts _) with (main_action dlopen LIBM_SO (prog :: l)) in R.
  split; [intros R'; exact (carried_fun _ _ _ _ _ _ _ R R')|intros <-; exact R].
Qed.
Lemma command_action dlopen LIBM_SO prog l os e r : command l os e -> carried dlopen LIBM_SO no_settings os e r -> main_action dlopen LIBM_SO (prog :: l) = r.
Proof.
  intros C R. destruct (command_line dlopen LIBM_SO prog l) as (os' & e' & _ & U & A). destruct (U os e C) as [-> ->]. apply A, R.
Qed.

(** Options before the script. *)
Lemma before_script n : forall m os' e', 
  (forall l os, size l <= n -> command l os Interactive -> ~ In (word "--") (map a_text l) -> command m os' e' -> command (l ++ m) (os ++ os') e') /\
  (forall t a l os, List.length t + size l <= n -> letters a t l os Interactive -> ~ In (word "--") (map a_text l) -> command m os' e' -> letters a t (l ++ m) (os ++ os') e').
Proof.
  induction n as [|n IH]; intros m os' e'; [split; intros; unfold size in *; lia|]. destruct (IH m os' e') as [IH1 IH2].
  assert (C : forall l os, size l <= S n -> command l os Interactive -> ~ In (word "--") (map a_text l) -> command m os' e' -> command (l ++ m) (os ++ os') e').
  { intros l os Sz H N M. inversion H as [|? ? D|? l' ? ? O H2|? t l' ? ? D T1 T2 H2]; subst; rewrite ?size_cons in Sz; cbn [map] in N.
    - exact M.
    - exfalso. apply N. left. exact D.
    - apply co_operand; [exact O|]. apply IH1; auto; [lia|]. intros X. apply N. right. exact X.
    - apply (co_letters a t); auto. apply IH2; auto; [rewrite D in Sz; cbn in Sz; lia|]. intros X. apply N. right. exact X. }
  split; [exact C|]. intros t a l os Sz H N M.
  inversion H as [? l' ? ? H2| |? t' l' ? ? H2|? t' l' ? ? H2|? c t' l' ? ? I T H2|? c b l' ? ? I H2| |]; subst.
  - apply le_end. apply C; auto.
  - apply le_dump. apply IH2; auto. cbn in Sz. lia.
  - apply le_dot. apply IH2; auto. cbn in Sz. lia.
  - apply le_attached; auto. cbn in Sz. inversion H2; subst; cbn [app].
    + apply ta_library; auto. apply IH1; auto. lia.
    + apply ta_include; auto. apply IH1; auto. lia.
  - cbn [app]. apply le_next; auto. cbn in Sz. rewrite size_cons in Sz. cbn [map] in N. inversion H2; subst; cbn [app].
    + apply ta_library; auto. apply IH1; auto; [lia|]. intros X. apply N. right. exact X.
    + apply ta_include; auto. apply IH1; auto; [lia|]. intros X. apply N. right. exact X.
Qed.
Lemma before_app l os m os' e' : command l os Interactive -> ~ In (word "--") (map a_text l) -> command m os' e' -> command (l ++ m) (os ++ os') e'.
Proof. apply (proj1 (before_script (size l) m os' e')). lia. Qed.
Lemma script_last dlopen LIBM_SO prog l os s f rest : command l os Interactive -> ~ In (word "--") (map a_text l) -> a_text s = word "-s" ->
  forall r, carried dlopen LIBM_SO no_settings os (Script (a_text f) (f :: rest)) r <-> main_action dlopen LIBM_SO (prog :: l ++ s :: f :: rest) = r.
Proof.
  intros C N S r.
  assert (C' : command (l ++ s :: f :: rest) (os ++ []) (Script (a_text f) (f :: rest))).
  { apply before_app; [exact C|exact N|]. apply (co_letters s (word "s")); [exact S|discriminate|discriminate|]. apply le_next; [cbn; tauto|]. apply ta_script. reflexivity. }
  rewrite app_nil_r in C'. destruct (command_line dlopen LIBM_SO prog (l ++ s :: f :: rest)) as (os' & e' & _ & U & A). destruct (U _ _ C') as [-> ->]. apply A.
Qed.
Lemma carried_dirs dlopen LIBM_SO o os e r : carried dlopen LIBM_SO o os e r -> forall o', libs o' = libs o -> print_ast o' = print_ast o ->
  exists r', carried dlopen LIBM_SO o' os e r' /\ match r, r' with
  | Stops n, Stops n' => n = n'
  | Runs_script p f v, Runs_script p' f' v' => libs p = libs p' /\ print_ast p = print_ast p' /\ f = f' /\ v = v'
  | Starts_repl _, Starts_repl _ => True
  | _, _ => False
  end.
Proof.
  intros H. induction H as [o x w os e r O H IH|o x os e O|o x os e r H IH|o os e r H IH|o os e r H IH|o|o|o f v|o]; intros o' L P.
  - destruct (IH (mkset (libs o' ++ [w]) (inc_dirs o') (print_ast o') (dot o'))) as (r' & R & M); [cbn; congruence|exact P|].
    exists r'. split; [apply (ca_opened _ _ _ _ w); [rewrite L; exact O|exact R]|exact M].
  - exists (Stops 1). split; [apply ca_refused; rewrite L; exact O|reflexivity].
  - destruct (IH (mkset (libs o') (Some (match inc_dirs o' with Some l => l | None => [] end ++ [x])) (print_ast o') (dot o'))) as (r' & R & M); [exact L|exact P|].
    exists r'. split; [apply ca_include, R|exact M].
  - destruct (IH (mkset (libs o') (inc_dirs o') true (dot o'))) as (r' & R & M); [exact L|reflexivity|]. exists r'. split; [apply ca_dump, R|exact M].
  - destruct (IH (mkset (libs o') (inc_dirs o') (print_ast o') true)) as (r' & R & M); [exact L|exact P|]. exists r'. split; [apply ca_dot, R|exact M].
  - exists (Stops 0). split; [constructor|reflexivity].
  - exists (Stops 1). split; [constructor|reflexivity].
  - exists (Runs_script o' f v). split; [constructor|cbn; auto].
  - exists (Starts_repl o'). split; [constructor|exact I].
Qed.
Lemma include_ignored dlopen LIBM_SO OPTS output E prog i d l n : a_text i = word "-I" ->
  main_script dlopen LIBM_SO OPTS output E n (prog :: i :: d :: l) = main_script dlopen LIBM_SO OPTS output E n (prog :: l).
Proof.
  intros I. destruct (command_line dlopen LIBM_SO prog l) as (os & e & C & _ & A).
  pose proof (proj2 (A _) eq_refl) as R. unfold main_script.
  destruct (carried_dirs _ _ _ _ _ _ R (mkset [] (Some [a_text d]) false false) eq_refl eq_refl) as (r' & R' & M).
  assert (C' : command (i :: d :: l) (Include (a_text d) :: os) e).
  { apply (co_letters i (word "I")); [exact I|discriminate|discriminate|]. apply le_next; [cbn; tauto|]. apply ta_include; auto. }
  rewrite (command_action dlopen LIBM_SO prog _ _ _ r' C'); [|apply ca_include; exact R'].
  destruct (main_action dlopen LIBM_SO (prog :: l)), r'; try contradiction; [reflexivity| |reflexivity]. destruct M as (-> & -> & -> & ->). reflexivity.
Qed.

Lemma bind_ok A B (m : M A) (k : A -> M B) s0 a s : m s0 = Ok a s -> bind m k s0 = k a s.
Proof. intros H. unfold bind. rewrite H. reflexivity. Qed.
Lemma main_script_eq dlopen LIBM_SO OPTS output E argv o f v n : main_action dlopen LIBM_SO argv = Runs_script o f v ->
  main_script dlopen LIBM_SO OPTS output E n argv =
  Some (bind (eval_init (E [])) (fun _ => evaluate_cscript (E (libs o)) n (output (cscript_command OPTS f)) (print_ast o) (map a_addr v))).
Proof. intros A. unfold main_script. rewrite A. reflexivity. Qed.
Lemma runs_shape (F : nat -> option (M Z)) (X : nat -> M Z) (k : nat -> res Z) s0 r : (forall n, F n = Some (X n)) -> (forall n, X n s0 = k n) ->
  (r <> State.Fuel /\ exists n m, F n = Some m /\ m s0 = r) <-> (r <> State.Fuel /\ exists n, k n = r).
Proof.
  intros H1 H2. split; intros (N & n & H); (split; [exact N|]); exists n.
  - destruct H as (m & H & R). rewrite H1 in H. injection H as <-. rewrite <- H2. exact R.
  - exists (X n). split; [apply H1|]. rewrite H2. exact H.
Qed.
Lemma main_runs dlopen LIBM_SO OPTS output E argv o f v s0 s : main_action dlopen LIBM_SO argv = Runs_script o f v -> eval_init (E []) s0 = Ok tt s ->
  forall r, runs_as dlopen LIBM_SO OPTS output E argv s0 r <->
    r <> State.Fuel /\ exists n, evaluate_cscript (E (libs o)) n (output (preprocess_command OPTS f)) (print_ast o) (map a_addr v) s = r.
Proof.
  intros A I r. change (preprocess_command OPTS f) with (cscript_command OPTS f). unfold runs_as.
  pose proof (fun n => main_script_eq dlopen LIBM_SO OPTS output E argv o f v n A) as Q.
  pose proof (fun n => bind_ok _ _ (eval_init (E [])) (fun _ => evaluate_cscript (E (libs o)) n (output (cscript_command OPTS f)) (print_ast o) (map a_addr v)) s0 tt s I) as B.
  cbv beta in B. exact (runs_shape _ _ _ s0 r Q B).
Qed.
