(** Lemmas about the scanner model. *)
From Coq Require Import ZArith List String Ascii Bool Lia.
From Verif Require Import Lexer SpecLexer.
Import ListNotations.
Local Open Scope string_scope.
Local Open Scope list_scope.

(** ** Patterns *)
Inductive matches : re -> list ascii -> Prop :=
| m_eps : matches Eps []
| m_cls f c : f c = true -> matches (Cls f) [c]
| m_cat a b u v : matches a u -> matches b v -> matches (Cat a b) (u ++ v)
| m_alt_l a b u : matches a u -> matches (Alt a b) u
| m_alt_r a b u : matches b u -> matches (Alt a b) u
| m_star_nil a : matches (Star a) []
| m_star a u v : matches a u -> matches (Star a) v -> matches (Star a) (u ++ v).

Lemma matches_void s : ~ matches Void s.
Proof. inversion 1. Qed.
Lemma matches_eps s : matches Eps s <-> s = [].
Proof. split; [inversion 1; reflexivity|intros ->; constructor]. Qed.
Lemma matches_cls f s : matches (Cls f) s <-> exists c, s = [c] /\ f c = true.
Proof. split; [inversion 1; subst; eauto|intros (c & -> & H); constructor; exact H]. Qed.
Lemma matches_cat a b s : matches (Cat a b) s <-> exists u v, s = u ++ v /\ matches a u /\ matches b v.
Proof. split; [inversion 1; subst; eauto|intros (u & v & -> & H1 & H2); constructor; assumption]. Qed.
Lemma matches_alt a b s : matches (Alt a b) s <-> matches a s \/ matches b s.
Proof. split; [inversion 1; subst; auto|intros [H|H]; [apply m_alt_l|apply m_alt_r]; exact H]. Qed.

Lemma nullable_iff r : nullable r = true <-> matches r [].
Proof.
  induction r; cbn.
  - split; [discriminate|intros H; apply matches_void in H; contradiction].
  - rewrite matches_eps. tauto.
  - rewrite matches_cls. split; [discriminate|intros (c & H & _); discriminate].
  - rewrite andb_true_iff, matches_cat, IHr1, IHr2. split.
    + intros [H1 H2]. exists [], []. auto.
    + intros (u & v & H & H1 & H2). symmetry in H. apply app_eq_nil in H as [-> ->]. auto.
  - rewrite orb_true_iff, matches_alt, IHr1, IHr2. tauto.
  - split; [constructor|reflexivity].
Qed.

Lemma cat_iff a b s : matches (cat a b) s <-> matches (Cat a b) s.
Proof.
  destruct a; cbn [cat]; try tauto.
  - rewrite matches_cat. split; [intros H; apply matches_void in H; contradiction|].
    intros (u & v & _ & H & _). apply matches_void in H. contradiction.
  - rewrite matches_cat. split; [intros H; exists [], s; split; [reflexivity|split; [constructor|exact H]]|].
    intros (u & v & -> & H & H2). apply matches_eps in H. subst. exact H2.
Qed.
Lemma alt_iff a b s : matches (alt a b) s <-> matches (Alt a b) s.
Proof.
  rewrite matches_alt. destruct a, b; cbn [alt]; try apply matches_alt;
    pose proof (matches_void s); tauto.
Qed.

Lemma star_cons a c s : matches (Star a) (c :: s) -> exists u v, s = u ++ v /\ matches a (c :: u) /\ matches (Star a) v.
Proof.
  remember (Star a) as r eqn:Hr. remember (c :: s) as w eqn:Hw. intros H. revert c s Hw.
  induction H; try discriminate. injection Hr as ->. intros c s Hw. destruct u as [|d u].
  - apply IHmatches2; auto.
  - injection Hw as -> <-. exists u, v. auto.
Qed.

Lemma deriv_iff r : forall c s, matches (deriv c r) s <-> matches r (c :: s).
Proof.
  induction r; intros c s; cbn [deriv].
  - split; intros H; apply matches_void in H; contradiction.
  - rewrite matches_eps. split; [intros H; apply matches_void in H; contradiction|discriminate].
  - rewrite matches_cls. destruct (f c) eqn:Hf.
    + rewrite matches_eps. split; [intros ->; eauto|intros (d & H & _); injection H as _ ->; reflexivity].
    + split; [intros H; apply matches_void in H; contradiction|]. intros (d & H & Hd). injection H as -> _. congruence.
  - assert (H1 : matches (Cat (deriv c r1) r2) s <-> exists u v, s = u ++ v /\ matches r1 (c :: u) /\ matches r2 v).
    { rewrite matches_cat. split; intros (u & v & -> & H1 & H2); exists u, v; (split; [reflexivity|]); (split; [apply IHr1, H1|exact H2]). }
    rewrite matches_cat. destruct (nullable r1) eqn:Hn.
    + rewrite alt_iff, matches_alt, cat_iff, H1, IHr2. split.
      * intros [(u & v & -> & H2 & H3)|H]; [exists (c :: u), v; auto|].
        exists [], (c :: s). split; [reflexivity|]. split; [apply nullable_iff, Hn|exact H].
      * intros (u & v & He & H2 & H3). destruct u as [|d u]; [right; cbn in He; rewrite He; exact H3|].
        injection He as <- ->. left. eauto.
    + rewrite cat_iff, H1. split.
      * intros (u & v & -> & H2 & H3). exists (c :: u), v. auto.
      * intros (u & v & He & H2 & H3). destruct u as [|d u]; [apply nullable_iff in H2; congruence|].
        injection He as <- ->. eauto.
  - rewrite alt_iff, !matches_alt, IHr1, IHr2. tauto.
  - rewrite cat_iff, matches_cat. split.
    + intros (u & v & -> & H1 & H2). apply IHr in H1. apply (m_star r (c :: u) v); assumption.
    + intros H. apply star_cons in H as (u & v & -> & H1 & H2). exists u, v. split; [reflexivity|]. split; [apply IHr, H1|exact H2].
Qed.

(** ** Longest match *)
Definition is_longest (r : re) (s : list ascii) (n : nat) : Prop :=
  (n <= List.length s)%nat /\ matches r (firstn n s) /\ forall m, (n < m <= List.length s)%nat -> ~ matches r (firstn m s).

Lemma longest_spec s : forall r,
  match longest r s with
  | Some n => is_longest r s n
  | None => forall m, (m <= List.length s)%nat -> ~ matches r (firstn m s)
  end.
Proof.
  induction s as [|c s IH]; intros r.
  - cbn. destruct (nullable r) eqn:Hn.
    + split; [lia|]. split; [apply nullable_iff, Hn|]. cbn. lia.
    + intros m Hm. rewrite firstn_nil. intros H. apply nullable_iff in H. congruence.
  - assert (Hgen : match (match longest (deriv c r) s with Some n => Some (S n) | None => if nullable r then Some O else None end) with
      | Some n => is_longest r (c :: s) n | None => forall m, (m <= List.length (c :: s))%nat -> ~ matches r (firstn m (c :: s)) end).
    { specialize (IH (deriv c r)). destruct (longest (deriv c r) s) as [n|].
      - destruct IH as (H1 & H2 & H3). split; [cbn; lia|]. split; [apply deriv_iff, H2|].
        intros m Hm. destruct m as [|m]; [lia|]. cbn [firstn]. rewrite <- deriv_iff. apply H3. cbn in Hm. lia.
      - destruct (nullable r) eqn:Hn.
        + split; [lia|]. split; [apply nullable_iff, Hn|]. intros m Hm. destruct m as [|m]; [lia|]. cbn [firstn].
          rewrite <- deriv_iff. apply IH. cbn in Hm. lia.
        + intros m Hm. destruct m as [|m]; [cbn; intros H; apply nullable_iff in H; congruence|]. cbn [firstn].
          rewrite <- deriv_iff. apply IH. cbn in Hm. lia. }
    destruct r; try exact Hgen. cbn. intros m Hm H. apply matches_void in H. exact H.
Qed.

Lemma is_longest_fun r s n m : is_longest r s n -> is_longest r s m -> n = m.
Proof.
  intros (A1 & A2 & A3) (B1 & B2 & B3). destruct (lt_eq_lt_dec n m) as [[H|H]|H]; [|exact H|].
  - exfalso. apply (A3 m); [lia|exact B2].
  - exfalso. apply (B3 n); [lia|exact A2].
Qed.

Lemma longest_some r s n : is_longest r s n -> longest r s = Some n.
Proof.
  intros H. pose proof (longest_spec s r) as Hs. destruct (longest r s) as [m|].
  - f_equal. eapply is_longest_fun; eauto.
  - destruct H as (H1 & H2 & _). exfalso. apply (Hs n); assumption.
Qed.
Lemma longest_none r s : (forall m, (m <= List.length s)%nat -> ~ matches r (firstn m s)) -> longest r s = None.
Proof.
  intros H. pose proof (longest_spec s r) as Hs. destruct (longest r s) as [m|]; [|reflexivity].
  destruct Hs as (H1 & H2 & _). exfalso. eapply H; eauto.
Qed.

(** In terms of a split of the text. *)
Lemma longest_app r u v : matches r u -> (forall w w', w <> [] -> v = w ++ w' -> ~ matches r (u ++ w)) ->
  longest r (u ++ v) = Some (List.length u).
Proof.
  intros Hu Hv. apply longest_some. split; [rewrite app_length; lia|]. split.
  - rewrite firstn_app, Nat.sub_diag, firstn_all. cbn. rewrite app_nil_r. exact Hu.
  - intros m Hm. rewrite app_length in Hm. rewrite firstn_app, firstn_all2 by lia.
    apply (Hv _ (skipn (m - List.length u) v)); [|symmetry; apply firstn_skipn].
    destruct v as [|c v]; [cbn in Hm; lia|]. destruct (m - List.length u)%nat eqn:He; [lia|]. discriminate.
Qed.
Lemma longest_no r s : (forall w w', s = w ++ w' -> ~ matches r w) -> longest r s = None.
Proof.
  intros H. apply longest_none. intros m Hm. apply (H _ (skipn m s)). symmetry. apply firstn_skipn.
Qed.

(** ** Choice of the rule *)
Definition alive (c : ascii) (r : rule) : bool := match deriv c (r_re r) with Void => false | _ => true end.

Lemma dead_longest c r s : alive c r = false -> longest (r_re r) (c :: s) = None \/ longest (r_re r) (c :: s) = Some O.
Proof.
  unfold alive. intros H. pose proof (longest_spec (c :: s) (r_re r)) as Hs.
  destruct (longest (r_re r) (c :: s)) as [[|n]|]; auto. destruct Hs as (_ & Hm & _). cbn [firstn] in Hm.
  apply deriv_iff in Hm. destruct (deriv c (r_re r)); try discriminate. apply matches_void in Hm. contradiction.
Qed.

Lemma choose_alive c s rs : choose rs (c :: s) = choose (filter (alive c) rs) (c :: s).
Proof.
  induction rs as [|r rs IH]; [reflexivity|]. cbn [choose filter]. destruct (alive c r) eqn:Ha.
  - cbn [choose]. rewrite IH. reflexivity.
  - destruct (dead_longest c r s Ha) as [->| ->]; exact IH.
Qed.

(** ** Classes, repetitions *)
Lemma matches_star_cls f u : matches (Star (Cls f)) u <-> forallb f u = true.
Proof.
  split.
  - remember (Star (Cls f)) as r eqn:Hr. intros H. induction H; try discriminate; [reflexivity|].
    injection Hr as ->. apply matches_cls in H as (c & -> & H). cbn. rewrite H. apply IHmatches2. reflexivity.
  - induction u as [|c u IH]; [constructor|]. cbn. rewrite andb_true_iff. intros [H1 H2].
    apply (m_star (Cls f) [c] u); [constructor; exact H1|apply IH, H2].
Qed.
Lemma matches_plus_cls f u : matches (plus (Cls f)) u <-> u <> [] /\ forallb f u = true.
Proof.
  unfold plus. rewrite matches_cat. split.
  - intros (a & b & -> & H1 & H2). apply matches_cls in H1 as (c & -> & H1). apply matches_star_cls in H2.
    split; [discriminate|]. cbn. rewrite H1. exact H2.
  - intros [H1 H2]. destruct u as [|c u]; [contradiction|]. cbn in H2. apply andb_true_iff in H2 as [H2 H3].
    exists [c], u. split; [reflexivity|]. split; [constructor; exact H2|apply matches_star_cls, H3].
Qed.
Lemma matches_opt r u : matches (opt r) u <-> u = [] \/ matches r u.
Proof. unfold opt. rewrite matches_alt, matches_eps. tauto. Qed.
Lemma matches_char c u : matches (Cls (Ascii.eqb c)) u <-> u = [c].
Proof.
  rewrite matches_cls. split; [intros (d & -> & H); apply Ascii.eqb_eq in H; subst; reflexivity|].
  intros ->. exists c. split; [reflexivity|apply Ascii.eqb_refl].
Qed.

(** Two splits of a text at the end of a run. *)
Lemma span_unique (f : ascii -> bool) a : forall b x y, forallb f a = true -> forallb f b = true ->
  match x with c :: _ => f c = false | [] => True end -> match y with c :: _ => f c = false | [] => True end ->
  a ++ x = b ++ y -> a = b /\ x = y.
Proof.
  induction a as [|c a IH]; intros [|d b] x y Ha Hb Hx Hy He; cbn in *.
  - auto.
  - destruct x as [|e x]; [discriminate|]. injection He as -> _. rewrite Hx in Hb. discriminate.
  - destruct y as [|e y]; [discriminate|]. injection He as <- _. rewrite Hy in Ha. discriminate.
  - injection He as <- He. apply andb_true_iff in Ha as [_ Ha]. apply andb_true_iff in Hb as [_ Hb].
    destruct (IH b x y Ha Hb Hx Hy He) as [-> ->]. auto.
Qed.

(** ** Digits *)
Lemma digit_is_D c d : digit_is 10 c d -> is_D c = true /\ digit_value c = d.
Proof.
  intros (n & Hn & -> & H). do 10 (destruct n as [|n]; [destruct H as [H|H]; injection H as <-; split; reflexivity|]). lia.
Qed.
Lemma digit_is_8 c d : digit_is 8 c d -> between "0" "7" c = true /\ digit_value c = d.
Proof.
  intros (n & Hn & -> & H). do 8 (destruct n as [|n]; [destruct H as [H|H]; injection H as <-; split; reflexivity|]). lia.
Qed.
Lemma digit_is_X c d : digit_is 16 c d -> is_X c = true /\ digit_value c = d.
Proof.
  intros (n & Hn & -> & H). do 16 (destruct n as [|n]; [destruct H as [H|H]; injection H as <-; split; reflexivity|]). lia.
Qed.
Ltac all_chars c := destruct c as [[] [] [] [] [] [] [] []].
Lemma D_digit_is c : is_D c = true -> digit_is 10 c (digit_value c).
Proof.
  intros H. exists (Z.to_nat (digit_value c)). all_chars c; try discriminate H; (split; [vm_compute; lia|split; [reflexivity|left; reflexivity]]).
Qed.
Lemma X_digit_is c : is_X c = true -> digit_is 16 c (digit_value c).
Proof.
  intros H. exists (Z.to_nat (digit_value c)). all_chars c; try discriminate H; (split; [vm_compute; lia|split; [reflexivity|(left; reflexivity)||(right; reflexivity)]]).
Qed.
Lemma O_digit_is c : between "0" "7" c = true -> digit_is 8 c (digit_value c).
Proof.
  intros H. exists (Z.to_nat (digit_value c)). all_chars c; try discriminate H; (split; [vm_compute; lia|split; [reflexivity|left; reflexivity]]).
Qed.
Lemma decimal_digit_iff c : decimal_digit c <-> is_D c = true.
Proof. split; [intros [d H]; apply (digit_is_D c d H)|intros H; eexists; apply D_digit_is, H]. Qed.
Lemma hex_digit_iff c : hex_digit c <-> is_X c = true.
Proof. split; [intros [d H]; apply (digit_is_X c d H)|intros H; eexists; apply X_digit_is, H]. Qed.
Lemma octal_digit_iff c : octal_digit c <-> between "0" "7" c = true.
Proof. split; [intros [d H]; apply (digit_is_8 c d H)|intros H; eexists; apply O_digit_is, H]. Qed.

Lemma horner b s : forall v, fold_left (fun v c => (b * v + digit_value c)%Z) s v = (v * b ^ Z.of_nat (List.length s) + place_value b (map digit_value s))%Z.
Proof.
  induction s as [|c s IH]; intros v; [cbn; lia|]. cbn [fold_left map place_value List.length]. rewrite IH, map_length.
  rewrite Nat2Z.inj_succ, Z.pow_succ_r by lia. ring.
Qed.
Lemma digits_place b s : digits_value b s = place_value b (map digit_value s).
Proof. unfold digits_value. rewrite horner. lia. Qed.

Lemma numeral_value base f : (forall c d, digit_is base c d -> f c = true /\ digit_value c = d) ->
  forall text v, numeral base text v -> text <> [] /\ forallb f text = true /\ v = digits_value (Z.of_nat base) text.
Proof.
  intros Hf text v (Hn & ds & Hd & ->). split; [exact Hn|].
  assert (H : forallb f text = true /\ ds = map digit_value text).
  { clear Hn. induction Hd as [|c d t ds Hc Hd IH]; [auto|]. destruct IH as [H ->]. destruct (Hf _ _ Hc) as [H1 <-]. cbn. rewrite H1, H. auto. }
  destruct H as [H ->]. split; [exact H|]. rewrite digits_place. reflexivity.
Qed.
Lemma numeral_intro base f : (forall c, f c = true -> digit_is base c (digit_value c)) ->
  forall text, text <> [] -> forallb f text = true -> numeral base text (digits_value (Z.of_nat base) text).
Proof.
  intros Hf text Hn Ht. split; [exact Hn|]. exists (map digit_value text). split; [|apply digits_place].
  clear Hn. induction text as [|c t IH]; [constructor|]. cbn in Ht. apply andb_true_iff in Ht as [H1 H2]. constructor; [apply Hf, H1|apply IH, H2].
Qed.

(** ** Numbers *)
Lemma matches_int u : matches int_re u <-> exists ds, (u = ds \/ u = "-"%char :: ds) /\ ds <> [] /\ forallb is_D ds = true.
Proof.
  unfold int_re. rewrite matches_cat. split.
  - intros (a & b & -> & H1 & H2). apply matches_plus_cls in H2 as [H2 H3]. exists b. apply matches_opt in H1 as [->|H1].
    + auto.
    + apply matches_char in H1 as ->. auto.
  - intros (ds & [->| ->] & H1 & H2).
    + exists [], ds. split; [reflexivity|]. split; [apply matches_opt; auto|apply matches_plus_cls; auto].
    + exists ["-"%char], ds. split; [reflexivity|]. split; [apply matches_opt; right; apply matches_char; reflexivity|apply matches_plus_cls; auto].
Qed.
Lemma matches_float u : matches float_re u -> exists a b, (u = a ++ "."%char :: b \/ u = "-"%char :: a ++ "."%char :: b) /\
  a <> [] /\ b <> [] /\ forallb is_D a = true /\ forallb is_D b = true.
Proof.
  unfold float_re. intros H. apply matches_cat in H as (s & b & -> & H1 & H2). apply matches_cat in H2 as (x & y & -> & H2 & H3).
  apply matches_cat in H3 as (p & z & -> & H3 & H4). apply matches_char in H3 as ->. apply matches_plus_cls in H2 as [H2 H2'].
  apply matches_plus_cls in H4 as [H4 H4']. exists x, z. split; [|auto]. apply matches_opt in H1 as [->|H1]; [auto|].
  apply matches_char in H1 as ->. auto.
Qed.
Lemma matches_hex u : matches hex_re u <-> exists hs, u = "0"%char :: "x"%char :: hs /\ hs <> [] /\ forallb is_X hs = true.
Proof.
  unfold hex_re. rewrite matches_cat. split.
  - intros (a & b & -> & H1 & H2). apply matches_char in H1 as ->. apply matches_cat in H2 as (c & d & -> & H2 & H3).
    apply matches_char in H2 as ->. apply matches_plus_cls in H3 as H3. exists d. split; [reflexivity|exact H3].
  - intros (hs & -> & H1 & H2). exists ["0"%char], ("x"%char :: hs). split; [reflexivity|]. split; [apply matches_char; reflexivity|].
    apply matches_cat. exists ["x"%char], hs. split; [reflexivity|]. split; [apply matches_char; reflexivity|apply matches_plus_cls; auto].
Qed.

Lemma number_ends_D rest : number_ends rest -> match rest with c :: _ => is_D c = false | [] => True end.
Proof. destruct rest as [|c r]; [auto|]. cbn. rewrite decimal_digit_iff. intros [H _]. destruct (is_D c); tauto. Qed.

Lemma no_float_after ds rest a b w : forallb is_D ds = true -> number_ends rest -> forallb is_D a = true -> b <> [] ->
  forallb is_D b = true -> ds ++ rest = (a ++ "."%char :: b) ++ w -> False.
Proof.
  intros Hd He Ha Hb Hb' H. rewrite <- app_assoc in H.
  destruct (span_unique is_D ds a rest (("."%char :: b) ++ w) Hd Ha (number_ends_D _ He) eq_refl H) as [_ ->].
  destruct b as [|d b]; [contradiction|]. cbn in He. destruct He as [_ He]. apply (He eq_refl). apply decimal_digit_iff.
  cbn in Hb'. apply andb_true_iff in Hb'. tauto.
Qed.

Lemma longest_int_unsigned ds rest : ds <> [] -> forallb is_D ds = true ->
  match rest with c :: _ => is_D c = false | [] => True end -> longest int_re (ds ++ rest) = Some (List.length ds).
Proof.
  intros Hn Hd Hr. apply longest_app; [apply matches_int; eauto|].
  intros w w' Hw -> H. apply matches_int in H as (es & [H|H] & H1 & H2).
  - subst es. rewrite forallb_app in H2. apply andb_true_iff in H2 as [_ H2]. destruct w as [|c w]; [contradiction|].
    cbn [forallb] in H2. cbn [app] in Hr. rewrite Hr in H2. discriminate H2.
  - destruct ds as [|d ds]; [contradiction|]. injection H as -> _. discriminate Hd.
Qed.
Lemma longest_int_minus ds rest : ds <> [] -> forallb is_D ds = true ->
  match rest with c :: _ => is_D c = false | [] => True end -> longest int_re (("-"%char :: ds) ++ rest) = Some (S (List.length ds)).
Proof.
  intros Hn Hd Hr. rewrite (longest_app int_re ("-"%char :: ds) rest); [reflexivity|apply matches_int; eauto|].
  intros w w' Hw -> H. apply matches_int in H as (es & [H|H] & H1 & H2).
  - subst es. discriminate H2.
  - injection H as <-. rewrite forallb_app in H2. apply andb_true_iff in H2 as [_ H2]. destruct w as [|c w]; [contradiction|].
    cbn [forallb] in H2. cbn [app] in Hr. rewrite Hr in H2. discriminate H2.
Qed.

Section Lex.
Variable T : target.
Variable tn : list ascii -> bool.
Notation init := (active T tn INITIAL).

Definition int_rule : rule := mkrule [INITIAL] int_re (fun text st => Emit (INTEGER (mpz_decimal text)) st).
Definition float_rule : rule := mkrule [INITIAL] float_re (fun text st => Emit (FLOAT_CST text) st).
Definition hex_rule : rule := mkrule [INITIAL] hex_re (fun text st => Emit (INTEGER (mpz_hex text)) st).

Lemma choose_digit c s : is_D c = true -> choose init (c :: s) = choose [int_rule; float_rule; hex_rule] (c :: s).
Proof.
  intros H. rewrite choose_alive, (choose_alive c s [int_rule; float_rule; hex_rule]). f_equal.
  all_chars c; try discriminate H; destruct T; reflexivity.
Qed.

Lemma choose_minus s : choose init ("-"%char :: s) =
  choose [int_rule; float_rule; keyword "-=" "SUB_ASSIGN"; punct "-"; keyword "--" "DEC"; keyword "->" "PTR_ACCESS"] ("-"%char :: s).
Proof. rewrite choose_alive. f_equal. destruct T; reflexivity. Qed.

Lemma choose_decimal ds rest : ds <> [] -> forallb is_D ds = true -> number_ends rest ->
  ~ (ds = ["0"%char] /\ hex_follows rest) -> choose init (ds ++ rest) = Some (int_rule, List.length ds).
Proof.
  intros Hn Hd He Hx. destruct ds as [|d ds]; [contradiction|]. cbn [app].
  rewrite choose_digit by (cbn in Hd; apply andb_true_iff in Hd; tauto).
  assert (H1 : longest int_re (d :: ds ++ rest) = Some (S (List.length ds))).
  { apply (longest_int_unsigned (d :: ds) rest Hn Hd (number_ends_D _ He)). }
  assert (H2 : longest float_re (d :: ds ++ rest) = None).
  { apply longest_no. intros w w' H Hm. apply matches_float in Hm as (a & b & [->| ->] & Ha & Hb & Ha' & Hb').
    - eapply (no_float_after (d :: ds) rest a b w'); eauto.
    - injection H as -> _. discriminate Hd. }
  assert (H3 : longest hex_re (d :: ds ++ rest) = None).
  { apply longest_no. intros w w' H Hm. apply matches_hex in Hm as (hs & -> & Hh & Hh'). injection H as -> H.
    destruct ds as [|e ds].
    - apply Hx. split; [reflexivity|]. cbn in H. subst rest. destruct hs as [|h hs]; [contradiction|].
      exists h, (hs ++ w'). split; [reflexivity|]. apply hex_digit_iff. cbn in Hh'. apply andb_true_iff in Hh'. tauto.
    - injection H as -> _. discriminate Hd. }
  cbn [choose r_re int_rule float_rule hex_rule]. rewrite H1, H2, H3. reflexivity.
Qed.

Lemma choose_negative ds rest : ds <> [] -> forallb is_D ds = true -> number_ends rest ->
  choose init ("-"%char :: ds ++ rest) = Some (int_rule, S (List.length ds)).
Proof.
  intros Hn Hd He. rewrite choose_minus.
  pose proof (longest_int_minus ds rest Hn Hd (number_ends_D _ He)) as H1. cbn [app] in H1.
  assert (H2 : longest float_re ("-"%char :: ds ++ rest) = None).
  { apply longest_no. intros w w' H Hm. apply matches_float in Hm as (a & b & [->| ->] & Ha & Hb & Ha' & Hb').
    - destruct a as [|c a]; [contradiction|]. injection H as <- _. discriminate Ha'.
    - injection H as H. eapply (no_float_after ds rest a b w'); eauto. }
  destruct ds as [|d ds]; [contradiction|]. cbn [app] in *.
  assert (Hd' : is_D d = true) by (cbn in Hd; apply andb_true_iff in Hd; tauto).
  set (s := ds ++ rest) in *. clearbody s.
  assert (H3 : longest (lit "-=") ("-"%char :: d :: s) = None /\ longest (Cls (Ascii.eqb "-")) ("-"%char :: d :: s) = Some 1%nat /\
    longest (lit "--") ("-"%char :: d :: s) = None /\ longest (lit "->") ("-"%char :: d :: s) = None).
  { clear - Hd'. all_chars d; try discriminate Hd'; destruct s; (split; [reflexivity|split; [reflexivity|split; reflexivity]]). }
  destruct H3 as (H3 & H4 & H5 & H6).
  cbn [choose r_re int_rule float_rule keyword punct]. rewrite H1, H2, H3, H4, H5, H6. reflexivity.
Qed.

Lemma choose_hex hs rest : hs <> [] -> forallb is_X hs = true ->
  match rest with c :: _ => is_X c = false | [] => True end ->
  choose init ("0"%char :: "x"%char :: hs ++ rest) = Some (hex_rule, S (S (List.length hs))).
Proof.
  intros Hn Hd He. rewrite choose_digit by reflexivity.
  assert (H1 : longest int_re ("0"%char :: "x"%char :: hs ++ rest) = Some 1%nat).
  { apply (longest_int_unsigned ["0"%char] ("x"%char :: hs ++ rest)); [discriminate|reflexivity|reflexivity]. }
  assert (H2 : longest float_re ("0"%char :: "x"%char :: hs ++ rest) = None).
  { apply longest_no. intros w w' H Hm. apply matches_float in Hm as (a & b & [->| ->] & Ha & Hb & Ha' & Hb'); [|discriminate].
    destruct a as [|c a]; [contradiction|]. injection H as <- H. cbn in Ha'. destruct a as [|e a]; [discriminate H|].
    injection H as <- _. discriminate Ha'. }
  assert (H3 : longest hex_re ("0"%char :: "x"%char :: hs ++ rest) = Some (S (S (List.length hs)))).
  { apply (longest_app hex_re ("0"%char :: "x"%char :: hs) rest).
    - apply matches_hex. eauto.
    - intros w w' Hw -> H. apply matches_hex in H as (gs & H & _ & H2'). injection H as <-.
      rewrite forallb_app in H2'. apply andb_true_iff in H2' as [_ H2']. destruct w as [|c w]; [contradiction|].
      cbn [forallb] in H2'. cbn [app] in He. rewrite He in H2'. discriminate H2'. }
  cbn [choose r_re int_rule float_rule hex_rule]. rewrite H1, H2, H3. reflexivity.
Qed.

Lemma yylex_emit fuel st u v r t st' : u <> [] -> choose (active T tn (l_cond st)) (u ++ v) = Some (r, List.length u) ->
  r_act r u st = Emit t st' -> yylex T tn (S fuel) st (u ++ v) = Token t st' v.
Proof.
  intros Hu Hc Ha. destruct u as [|c u]; [contradiction|]. cbn [app] in *. cbn [yylex]. rewrite Hc.
  change (c :: u ++ v) with ((c :: u) ++ v).
  rewrite firstn_app, Nat.sub_diag, firstn_all, skipn_app, skipn_all, Nat.sub_diag. cbn [firstn skipn app]. rewrite app_nil_r, Ha. reflexivity.
Qed.
Lemma yylex_skip fuel st u v r st' : u <> [] -> choose (active T tn (l_cond st)) (u ++ v) = Some (r, List.length u) ->
  r_act r u st = Skip st' -> yylex T tn (S fuel) st (u ++ v) = yylex T tn fuel st' v.
Proof.
  intros Hu Hc Ha. destruct u as [|c u]; [contradiction|]. cbn [app] in *. cbn [yylex]. rewrite Hc.
  change (c :: u ++ v) with ((c :: u) ++ v).
  rewrite firstn_app, Nat.sub_diag, firstn_all, skipn_app, skipn_all, Nat.sub_diag. cbn [firstn skipn app]. rewrite app_nil_r, Ha. reflexivity.
Qed.
Lemma yylex_err fuel st u v r : u <> [] -> choose (active T tn (l_cond st)) (u ++ v) = Some (r, List.length u) ->
  r_act r u st = LexErr -> yylex T tn (S fuel) st (u ++ v) = Error.
Proof.
  intros Hu Hc Ha. destruct u as [|c u]; [contradiction|]. cbn [app] in *. cbn [yylex]. rewrite Hc.
  change (c :: u ++ v) with ((c :: u) ++ v).
  rewrite firstn_app, Nat.sub_diag, firstn_all. cbn [firstn]. rewrite app_nil_r, Ha. reflexivity.
Qed.

Lemma lex_decimal fuel st ds v rest : l_cond st = INITIAL -> numeral 10 ds v -> number_ends rest ->
  ~ (ds = ["0"%char] /\ hex_follows rest) ->
  yylex T tn (S fuel) st (ds ++ rest) = Token (INTEGER v) st rest.
Proof.
  intros Hst Hv He Hx. destruct (numeral_value 10 is_D digit_is_D ds v Hv) as (Hn & Hd & ->).
  eapply yylex_emit; [exact Hn|rewrite Hst; apply choose_decimal; assumption|].
  cbn. destruct ds as [|d ds]; [contradiction|]. cbn [mpz_decimal]. destruct (Ascii.eqb d "-") eqn:Hm; [|reflexivity].
  apply Ascii.eqb_eq in Hm as ->. discriminate Hd.
Qed.
Lemma lex_negative fuel st ds v rest : l_cond st = INITIAL -> numeral 10 ds v -> number_ends rest ->
  yylex T tn (S fuel) st ("-"%char :: ds ++ rest) = Token (INTEGER (- v)) st rest.
Proof.
  intros Hst Hv He. destruct (numeral_value 10 is_D digit_is_D ds v Hv) as (Hn & Hd & ->).
  apply (yylex_emit fuel st ("-"%char :: ds) rest int_rule); [discriminate|rewrite Hst; apply choose_negative; assumption|].
  reflexivity.
Qed.
Lemma lex_hex fuel st hs v rest : l_cond st = INITIAL -> numeral 16 hs v -> match rest with c :: _ => ~ hex_digit c | [] => True end ->
  yylex T tn (S fuel) st ("0"%char :: "x"%char :: hs ++ rest) = Token (INTEGER v) st rest.
Proof.
  intros Hst Hv He. destruct (numeral_value 16 is_X digit_is_X hs v Hv) as (Hn & Hd & ->).
  apply (yylex_emit fuel st ("0"%char :: "x"%char :: hs) rest hex_rule); [discriminate| |reflexivity].
  rewrite Hst. apply choose_hex; [assumption..|]. destruct rest as [|c r]; [exact I|]. rewrite hex_digit_iff in He. destruct (is_X c); tauto.
Qed.
End Lex.
