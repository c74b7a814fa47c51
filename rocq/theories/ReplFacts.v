(** Facts about the model of src/repl.c and src/preprocess.c. *)
From Coq Require Import ZArith List Bool Ascii Lia.
From Verif Require Import CInt ListC ListCSpec ListCFacts Repl SpecRepl.
Import ListNotations.
Local Open Scope Z_scope.
Local Open Scope list_scope.

(** * Member access *)
Lemma starts_iff n s : starts n s = true <-> exists r, s = n ++ r.
Proof.
  unfold starts. revert s. induction n as [|c n IH]; intros s; cbn; [split; eauto|].
  destruct s as [|d s]; cbn; [split; [discriminate|intros [r H]; discriminate H]|].
  specialize (IH s). rewrite andb_true_iff in IH |- *. rewrite andb_true_iff, Ascii.eqb_eq. split.
  - intros (H1 & -> & H2). destruct (proj1 IH (conj H1 H2)) as [r ->]. exists r. reflexivity.
  - intros [r H]. inversion H; subst. destruct (proj2 IH (ex_intro _ r eq_refl)). auto.
Qed.
Lemma strstr_iff s n : strstr s n = true <-> exists a b, s = a ++ n ++ b.
Proof.
  induction s as [|c s IH]; cbn; rewrite orb_true_iff, starts_iff.
  - split; [intros [[r H]|H]; [|discriminate H]; exists [], r; exact H|].
    intros (a & b & H). left. destruct a; [exists b; exact H|discriminate H].
  - rewrite IH. split.
    + intros [[r H]|(a & b & ->)]; [exists [], r; exact H|exists (c :: a), b; reflexivity].
    + intros ([|x a] & b & H); [left; exists b; exact H|]. inversion H; subst. right. eauto.
Qed.
Lemma dot_app_l a c b i : i = length a -> is_dot (a ++ c :: b) i = Ascii.eqb c "."%char.
Proof. intros ->. unfold is_dot. rewrite nth_error_app2, Nat.sub_diag by lia. reflexivity. Qed.
Lemma no_dot s i k : ~ In "."%char (skipn k s) -> (k <= i)%nat -> is_dot s i = false.
Proof.
  intros H L. unfold is_dot. destruct (nth_error s i) as [c|] eqn:E; auto. apply Ascii.eqb_neq. intros ->. apply H.
  rewrite <- (firstn_skipn k s) in E. rewrite nth_error_app2 in E by (rewrite firstn_length; lia). apply nth_error_In in E. exact E.
Qed.
Lemma split_dot_loop obj pre a : ~ In "."%char pre -> obj <> [] -> forall i, (length obj <= i <= length (obj ++ "."%char :: pre))%nat ->
  split_loop (obj ++ "."%char :: pre) i a = mkaccess (Some obj) (Some ["."%char]) (Some pre) false.
Proof.
  intros Np No i. revert a. induction i as [|i IH]; intros a L.
  - destruct obj; [now destruct No|cbn in L; lia].
  - cbn [split_loop]. destruct (Nat.eq_dec (length obj) (S i)) as [E|E].
    + rewrite dot_app_l by auto. cbn [Ascii.eqb]. rewrite <- E.
      assert (E1 : firstn (length obj) (obj ++ "."%char :: pre) = obj) by (rewrite firstn_app, Nat.sub_diag, firstn_O, List.app_nil_r; apply firstn_all).
      assert (E2 : from (length obj + 1) (obj ++ "."%char :: pre) = pre).
      { unfold from. rewrite skipn_app. replace (length obj + 1 - length obj)%nat with 1%nat by lia. rewrite skipn_all2 by lia. reflexivity. }
      rewrite E1, E2. reflexivity.
    + rewrite (no_dot _ _ (S (length obj))) by (try lia; rewrite skipn_app; replace (S (length obj) - length obj)%nat with 1%nat by lia; rewrite skipn_all2 by lia; exact Np).
      destruct (strstr _ arrow); apply IH; lia.
Qed.
Lemma split_dot obj pre : ~ In "."%char pre -> obj <> [] ->
  split_compound_access_text (obj ++ "."%char :: pre) = Some (mkaccess (Some obj) (Some ["."%char]) (Some pre) false).
Proof. intros Np No. unfold split_compound_access_text. rewrite (split_dot_loop obj pre _ Np No) by (rewrite app_length; cbn; lia). reflexivity. Qed.

(** Without a dot after the first character, the last round decides. *)
Lemma split_loop_S s i a : split_loop s (S i) a =
  if is_dot s (S i) then mkaccess (Some (firstn (S i) s)) (Some ["."%char]) (Some (from (S i + 1) s)) false
  else split_loop s i (if strstr (from (S i) s) arrow then mkaccess (Some (firstn (S i) s)) (Some arrow) (Some (from (S i + 2) s)) true else a).
Proof. cbn [split_loop]. destruct (is_dot s (S i)); auto. destruct (strstr _ arrow); reflexivity. Qed.
Lemma skipn_skipn' {A} (l : list A) : forall x y, skipn x (skipn y l) = skipn (x + y) l.
Proof. induction l as [|a l IH]; intros x y; [now rewrite !skipn_nil|]. destruct y; [now rewrite Nat.add_0_r|]. rewrite Nat.add_succ_r. cbn. apply IH. Qed.
Lemma strstr_from i j s : (i <= j)%nat -> strstr (from j s) arrow = true -> strstr (from i s) arrow = true.
Proof.
  intros L H. apply strstr_iff in H as (a & b & E). apply strstr_iff. unfold from in *.
  rewrite <- (firstn_skipn (j - i) (skipn i s)), skipn_skipn'. replace (j - i + i)%nat with j by lia. rewrite E.
  exists (firstn (j - i) (skipn i s) ++ a), b. now rewrite <- List.app_assoc.
Qed.
Lemma split_nodot_loop c rest i : ~ In "."%char rest -> forall a,
  split_loop (c :: rest) (S i) a =
  if strstr (from 1 (c :: rest)) arrow then mkaccess (Some [c]) (Some arrow) (Some (from 3 (c :: rest))) true
  else a.
Proof.
  intros N. induction i as [|i IH]; intros a; rewrite split_loop_S, (no_dot _ _ 1) by (try lia; cbn; auto).
  - destruct (strstr (from 1 (c :: rest)) arrow); reflexivity.
  - rewrite IH. destruct (strstr (from 1 (c :: rest)) arrow) eqn:E; auto.
    destruct (strstr (from (S (S i)) (c :: rest)) arrow) eqn:E'; auto. apply (strstr_from 1) in E'; [congruence|lia].
Qed.
Lemma split_nodot c rest : ~ In "."%char rest ->
  split_compound_access_text (c :: rest) =
  if strstr rest arrow then Some (mkaccess (Some [c]) (Some arrow) (Some (skipn 2 rest)) true) else None.
Proof.
  intros N. unfold split_compound_access_text. cbn [length]. rewrite split_nodot_loop by exact N. unfold from. cbn [skipn].
  destruct (strstr rest arrow); reflexivity.
Qed.
Lemma last_dot s : In "."%char s -> exists a b, s = a ++ "."%char :: b /\ ~ In "."%char b.
Proof.
  induction s as [|c s IH]; [intros []|]. intros I. destruct (in_dec ascii_dec "."%char s) as [J|J].
  - destruct (IH J) as (a & b & -> & N). exists (c :: a), b. auto.
  - destruct I as [->|I]; [|tauto]. exists [], s. auto.
Qed.
Lemma compound_loop_iff s k : compound_loop s k = true <-> exists i, (1 <= i <= k)%nat /\ (is_dot s i = true \/ strstr (from i s) arrow = true).
Proof.
  induction k as [|k IH]; cbn [compound_loop].
  - split; [discriminate|intros (i & H & _); lia].
  - destruct (is_dot s (S k)) eqn:D; [split; auto; intros _; exists (S k); split; [lia|auto]|].
    destruct (strstr (from (S k) s) arrow) eqn:E; [split; auto; intros _; exists (S k); split; [lia|auto]|].
    rewrite IH. split; intros (i & L & H); [exists i; split; [lia|auto]|]. destruct (Nat.eq_dec i (S k)) as [->|N]; [destruct H; congruence|]. exists i. split; [lia|auto].
Qed.
Lemma compound_iff_split s : is_compound_access s = true <-> split_compound_access_text s <> None.
Proof.
  destruct s as [|c rest]; [cbn; split; [discriminate|intros H; now destruct H]|].
  destruct (in_dec ascii_dec "."%char rest) as [I|N].
  - destruct (last_dot _ I) as (a & b & -> & Nb). change (c :: a ++ "."%char :: b) with ((c :: a) ++ "."%char :: b).
    rewrite split_dot by (auto; discriminate). split; [discriminate|]. intros _. unfold is_compound_access.
    replace (length ((c :: a) ++ "."%char :: b) <? 2)%nat with false by (symmetry; apply Nat.ltb_ge; rewrite app_length; cbn; lia).
    apply compound_loop_iff. exists (length (c :: a)). rewrite app_length. split; [cbn; lia|]. left. now rewrite dot_app_l.
  - rewrite split_nodot by exact N. unfold is_compound_access. destruct (strstr rest arrow) eqn:E.
    + split; [discriminate|]. intros _. assert (L : (2 <= length rest)%nat).
      { apply strstr_iff in E as (a & b & ->). rewrite !app_length. cbn. lia. }
      replace (length (c :: rest) <? 2)%nat with false by (symmetry; apply Nat.ltb_ge; cbn; lia).
      apply compound_loop_iff. exists 1%nat. cbn. split; [lia|auto].
    + split; [|intros H; now destruct H]. destruct (length (c :: rest) <? 2)%nat; [discriminate|]. intros H.
      apply compound_loop_iff in H as (i & L & [H|H]); [rewrite (no_dot _ _ 1) in H by (auto; lia); discriminate H|].
      apply (strstr_from 1) in H; [|lia]. unfold from in H. cbn in H. congruence.
Qed.

(** * The line taken from the output *)
Lemma fgetc_at c i x : nth_error c i = Some x -> fgetc (mkfile c (Z.of_nat i)) = (Some x, mkfile c (Z.of_nat i + 1)).
Proof. intros H. unfold fgetc. cbn. now rewrite Nat2Z.id, H. Qed.
Lemma read_line_spec c n : forall i, (i + n <= length c)%nat -> read_line (mkfile c (Z.of_nat i)) n = firstn n (skipn i c).
Proof.
  induction n as [|n IH]; intros i L; [reflexivity|]. cbn [read_line].
  destruct (nth_error c i) as [x|] eqn:E; [|apply nth_error_None in E; lia].
  rewrite (fgetc_at _ _ _ E). replace (Z.of_nat i + 1) with (Z.of_nat (S i)) by lia. rewrite IH by lia.
  assert (skipn i c = x :: skipn (S i) c) as ->; [|reflexivity].
  clear - E. revert c E. induction i as [|i IH]; intros [|y c] E; try discriminate E; cbn in *; [congruence|]. rewrite (IH c E). reflexivity.
Qed.
(** Going back over characters that are not newlines. *)
Lemma back_spec c k : forall j n fuel, (j < fuel)%nat -> (k + j + 1 <= length c)%nat ->
  (nth_error c k = Some newline \/ k = 0%nat) ->
  (forall i, (k < i <= k + j)%nat -> nth_error c i <> Some newline) ->
  back fuel (mkfile c (Z.of_nat (k + j + 2))) n = Some (Some (mkfile c (Z.of_nat (k + 1)), (n + j + 1)%nat)).
Proof.
  induction j as [|j IH]; intros n fuel Lf Lc Hk Hn; destruct fuel as [|fuel]; try lia; cbn [back]; unfold fseek; cbn [pos content].
  - replace (Z.of_nat (k + 0 + 2) + -2) with (Z.of_nat k) by lia. replace (Z.of_nat k <? 0) with false by (symmetry; apply Z.ltb_ge; lia).
    destruct (nth_error c k) as [x|] eqn:E; [|apply nth_error_None in E; lia]. rewrite (fgetc_at _ _ _ E). unfold ftell. cbn [pos to_char].
    replace (Z.of_nat k + 1 - 1) with (Z.of_nat k) by lia.
    assert (negb (Ascii.eqb x newline) && negb (Z.of_nat k =? 0) = false) as ->.
    { destruct Hk as [[= ->]| ->]; [now rewrite Ascii.eqb_refl|]. now rewrite andb_comm. }
    do 3 f_equal; [f_equal|]; lia.
  - replace (Z.of_nat (k + S j + 2) + -2) with (Z.of_nat (k + S j)) by lia. replace (Z.of_nat (k + S j) <? 0) with false by (symmetry; apply Z.ltb_ge; lia).
    destruct (nth_error c (k + S j)) as [x|] eqn:E; [|apply nth_error_None in E; lia]. rewrite (fgetc_at _ _ _ E). unfold ftell. cbn [pos to_char].
    assert (Ascii.eqb x newline = false) as -> by (apply Ascii.eqb_neq; intros ->; apply (Hn (k + S j)%nat); [lia|exact E]).
    replace (Z.of_nat (k + S j) + 1 - 1 =? 0) with false by (symmetry; apply Z.eqb_neq; lia). cbn [negb andb].
    replace (Z.of_nat (k + S j) + 1) with (Z.of_nat (k + j + 2)) by lia. rewrite IH; [do 3 f_equal; lia|lia|lia|exact Hk|]. intros i Li. apply Hn. lia.
Qed.
Lemma cpp_line_at c k fuel : (length c <= fuel)%nat -> (k + 2 <= length c)%nat -> (nth_error c k = Some newline \/ k = 0%nat) ->
  (forall i, (k < i <= length c - 2)%nat -> nth_error c i <> Some newline) ->
  run_cpp_on_line fuel c = Line (firstn (length c - 1 - k) (skipn k c)).
Proof.
  intros Lf Lc Hk Hn. unfold run_cpp_on_line. unfold fseek at 1. cbn [pos content]. replace (Z.of_nat (length c) + 0 <? 0) with false by (symmetry; apply Z.ltb_ge; lia).
  replace (Z.of_nat (length c) + 0) with (Z.of_nat (k + (length c - 2 - k) + 2)) by lia.
  rewrite back_spec; [|lia|lia|exact Hk|intros i L; apply Hn; lia].
  unfold fseek. cbn [pos content]. replace (Z.of_nat (k + 1) + -1) with (Z.of_nat k) by lia. replace (Z.of_nat k <? 0) with false by (symmetry; apply Z.ltb_ge; lia).
  rewrite read_line_spec by lia. do 2 f_equal. lia.
Qed.
Lemma cpp_line_newline before l last fuel : ~ In newline l -> (length (before ++ newline :: l ++ [last]) <= fuel)%nat ->
  run_cpp_on_line fuel (before ++ newline :: l ++ [last]) = Line (newline :: l).
Proof.
  intros N L. assert (Len : length (before ++ newline :: l ++ [last]) = (length before + length l + 2)%nat) by (rewrite !app_length; cbn; rewrite app_length; cbn; lia).
  rewrite (cpp_line_at _ (length before)); [|lia|lia| |].
  - f_equal. rewrite Len. rewrite skipn_app, Nat.sub_diag, skipn_all2 by lia. cbn [skipn app]. replace (length before + length l + 2 - 1 - length before)%nat with (S (length l)) by lia.
    cbn [firstn]. f_equal. rewrite firstn_app, Nat.sub_diag, firstn_O, List.app_nil_r. apply firstn_all.
  - left. rewrite nth_error_app2, Nat.sub_diag by lia. reflexivity.
  - intros i Li. rewrite Len in Li. rewrite nth_error_app2 by lia. destruct (i - length before)%nat as [|j] eqn:E; [lia|]. cbn [nth_error].
    rewrite nth_error_app1 by lia. intros H. apply nth_error_In in H. auto.
Qed.
Lemma cpp_line_first l last fuel : l <> [] -> ~ In newline l -> (length (l ++ [last]) <= fuel)%nat -> run_cpp_on_line fuel (l ++ [last]) = Line l.
Proof.
  intros Nl N L. assert (Len : length (l ++ [last]) = S (length l)) by (rewrite app_length; cbn; lia). assert (0 < length l)%nat by (destruct l; [now destruct Nl|cbn; lia]).
  rewrite (cpp_line_at _ 0); [|lia|lia|auto|].
  - f_equal. rewrite Len. cbn [skipn]. replace (S (length l) - 1 - 0)%nat with (length l) by lia. rewrite firstn_app, Nat.sub_diag, firstn_O, List.app_nil_r. apply firstn_all.
  - intros i Li. rewrite Len in Li. rewrite nth_error_app1 by lia. intros I. apply nth_error_In in I. auto.
Qed.
Lemma cpp_line_short c fuel : (length c < 2)%nat -> (0 < fuel)%nat -> run_cpp_on_line fuel c = Exit1.
Proof. destruct fuel; [lia|]. destruct c as [|x [|y c]]; cbn; intros; try lia; reflexivity. Qed.

(** * The pipe *)
Lemma le_value_bytes n : forall z, 0 <= z < 256 ^ Z.of_nat n -> le_value (le_bytes n z) = z.
Proof.
  induction n as [|n IH]; intros z H; cbn [le_bytes le_value]; [cbn in H; lia|].
  rewrite IH; [rewrite (Z.add_comm (z mod 256)); symmetry; apply Z.div_mod; lia|].
  replace (Z.of_nat (S n)) with (Z.of_nat n + 1) in H by lia. rewrite Z.pow_add_r in H by lia. split; [apply Z.div_pos; lia|]. apply Z.div_lt_upper_bound; lia.
Qed.
Lemma le_bytes_len n z : length (le_bytes n z) = n.
Proof. revert z. induction n; intros; cbn; auto. Qed.
Lemma size_value z : 0 <= z < 2 ^ 64 -> le_value (size_bytes z) = z.
Proof. intros H. apply le_value_bytes. cbn. lia. Qed.
Lemma read_whole sched a b r m ms : a ++ b = m :: ms -> m <> [] -> exists a' b', a' ++ b' = ms /\ read sched (mkpipe (concat a) b r) (length m) = (m, mkpipe (concat a') b' (S r)).
Proof.
  intros E N. unfold read. cbn [avail pending reads].
  set (k := max (sched r) match concat a with [] => 1%nat | _ => 0%nat end).
  assert (E' : exists a', a ++ firstn k b = m :: a' /\ a' ++ skipn k b = ms).
  { destruct a as [|x a].
    - cbn in E. subst b. cbn [concat] in k. destruct k as [|k'] eqn:Ek; [unfold k in Ek; lia|]. exists (firstn k' ms). cbn. split; auto. apply firstn_skipn.
    - cbn in E. inversion E; subst. exists (a ++ firstn k b). split; [reflexivity|]. rewrite <- List.app_assoc, firstn_skipn. reflexivity. }
  destruct E' as (a' & E1 & E2). exists a', (skipn k b). split; auto. rewrite <- concat_app, E1. cbn [concat].
  rewrite firstn_app, Nat.sub_diag, firstn_O, List.app_nil_r, firstn_all. rewrite skipn_app, Nat.sub_diag, skipn_all. reflexivity.
Qed.
Lemma read_into_whole sched g a b r m ms : a ++ b = m :: ms -> m <> [] -> exists a' b', a' ++ b' = ms /\ read_into sched g (mkpipe (concat a) b r) (length m) = (m, mkpipe (concat a') b' (S r)).
Proof.
  intros E N. destruct (read_whole sched a b r m ms E N) as (a' & b' & E' & R). exists a', b'. split; auto. unfold read_into. rewrite R.
  rewrite firstn_app, Nat.sub_diag, firstn_O, List.app_nil_r, firstn_all. reflexivity.
Qed.
Definition strings_msgs (l : list (list Z)) : list (list Z) := flat_map (fun s => [size_bytes (Z.of_nat (length s) + 1); s ++ [0]]) l.
Lemma size_ne z : size_bytes z <> [].
Proof. discriminate. Qed.
Lemma recieve_loop_spec sched g l : (forall s, In s l -> Z.of_nat (length s) + 1 < 2 ^ 64) -> forall a b r, a ++ b = strings_msgs l ->
  recieve_loop sched g (mkpipe (concat a) b r) (length l) = map (fun s => s ++ [0]) l.
Proof.
  induction l as [|s l IH]; intros H a b r E; [reflexivity|]. cbn [length recieve_loop map].
  change (strings_msgs (s :: l)) with (size_bytes (Z.of_nat (length s) + 1) :: (s ++ [0]) :: strings_msgs l) in E.
  destruct (read_into_whole sched g a b r _ _ E (size_ne _)) as (a' & b' & E' & R). unfold size_bytes at 1 in R. rewrite le_bytes_len in R. rewrite R.
  rewrite size_value by (split; [lia|apply H; now left]).
  destruct (read_into_whole sched g a' b' (S r) _ _ E') as (a2 & b2 & E2 & R2); [destruct s; discriminate|].
  replace (Z.to_nat (Z.of_nat (length s) + 1)) with (length (s ++ [0])) by (rewrite app_length; cbn; lia). rewrite R2. f_equal. apply IH; auto. intros; apply H; now right.
Qed.
Lemma arrives_small ws ps : arrives ws ps -> (forall w, In w ws -> (length w <= Z.to_nat 4096)%nat) -> ps = ws.
Proof.
  induction 1 as [|w ws ps L A IH|w ws cut ps L E N A IH]; intros H; auto.
  - f_equal. apply IH. intros; apply H; now right.
  - specialize (H w (or_introl eq_refl)). lia.
Qed.
Lemma pipe_ok l ps sched g : (forall s, In s l -> (length s < Z.to_nat 4096)%nat) -> Z.of_nat (length l) < 2 ^ 31 ->
  arrives (send_matches (Some l)) ps -> recieve_matches sched g ps = match l with [] => None | _ => Some (map (fun s => s ++ [0]) l) end.
Proof.
  intros H L A. apply arrives_small in A.
  - subst ps. unfold recieve_matches, send_matches. fold (strings_msgs l).
    destruct (read_into_whole sched g [] (size_bytes (Z.of_nat (length l)) :: strings_msgs l) 0 _ _ eq_refl (size_ne _)) as (a & b & E & R).
    unfold size_bytes at 2 in R. rewrite le_bytes_len in R. change (concat []) with (@nil Z) in R. rewrite R. rewrite size_value by lia.
    destruct l as [|s l]; [reflexivity|]. replace (Z.of_nat (length (s :: l)) =? 0) with false by (symmetry; apply Z.eqb_neq; cbn; lia).
    rewrite Nat2Z.id. f_equal. apply recieve_loop_spec; auto. intros w I. apply H in I. change (Z.to_nat 4096) with (Z.to_nat 4096) in I. assert (Z.of_nat (length w) < 4096) by lia. lia.
  - intros w I. assert (B : forall z, (length (size_bytes z) <= Z.to_nat 4096)%nat) by (intros; unfold size_bytes; rewrite le_bytes_len; lia).
    destruct I as [<-|I]; [apply B|]. apply in_flat_map in I as (s & I & [<-|[<-|[]]]); [apply B|]. apply H in I. rewrite app_length. cbn [length]. lia.
Qed.
Lemma pipe_null ps sched g : arrives (send_matches None) ps -> recieve_matches sched g ps = None.
Proof.
  intros A. apply arrives_small in A; [|intros w [<-|[]]; unfold size_bytes; rewrite le_bytes_len; lia]. subst ps. unfold recieve_matches.
  destruct (read_into_whole sched g [] [size_bytes 0] 0 _ _ eq_refl (size_ne _)) as (a & b & E & R).
  unfold size_bytes at 2 in R. rewrite le_bytes_len in R. cbn [concat] in R. unfold send_matches. rewrite R. reflexivity.
Qed.

(** * Identifier completion *)
Lemma strncmp_begins s t : strncmp_zero s t (length t) = begins t s.
Proof.
  unfold begins. revert s. induction t as [|c t IH]; intros s; [cbn [length strncmp_zero firstn]; destruct (list_eq_dec ascii_dec [] []) as [E|E]; [now destruct s|now destruct E]|]. cbn [length strncmp_zero firstn].
  destruct s as [|d s]; [destruct list_eq_dec as [E|E]; [discriminate E|reflexivity]|].
  destruct (Ascii.eqb_spec d c) as [->|N].
  - rewrite IH. destruct (list_eq_dec ascii_dec (firstn (length t) s) t) as [E|E]; destruct (list_eq_dec ascii_dec (c :: firstn (length t) s) (c :: t)) as [E'|E']; congruence.
  - destruct list_eq_dec as [E|E]; [congruence|reflexivity].
Qed.
Lemma chain_next h m a x b : chain h m (a ++ x :: b) -> nxt h x = hd m b.
Proof.
  intros [_ S]. assert (seg h m a x /\ seg h x b m) as [_ S'] by (apply seg_app in S; exact S). now apply seg_nxt in S'.
Qed.
Section Completion.
  Variables (nm : names) (c : Z) (t : text).
  Lemma match_loop_spec m : forall b a fuel h acc ids,
    chain h m (a ++ b) -> chain h c acc -> ids = filter (fun i => begins t (str nm i)) (map (left nm) b) ->
    NoDup (acc ++ ids) -> ~ In c ids -> (forall x, In x (m :: a ++ b) -> x <> c /\ ~ In x acc /\ ~ In x ids) ->
    (length b <= fuel)%nat ->
    exists h', match_loop fuel nm h c (hd m b) m t = Some h' /\ chain h' c (acc ++ ids) /\ chain h' m (a ++ b) /\
      (forall m2 l2, chain h m2 l2 -> (forall x, In x (m2 :: l2) -> x <> c /\ ~ In x acc /\ ~ In x ids) -> chain h' m2 l2).
  Proof.
    induction b as [|x b IH]; intros a fuel h acc ids Hm Hc -> N Nc D L.
    - exists h. cbn. rewrite List.app_nil_r. split; [|auto]. destruct fuel; cbn; now rewrite Z.eqb_refl.
    - destruct fuel as [|fuel]; [cbn in L; lia|]. cbn [hd match_loop].
      assert (x <> m). { destruct Hm as [Nd _]. intros ->. inversion Nd; subst. apply H1. apply in_or_app. right. now left. }
      rewrite (proj2 (Z.eqb_neq _ _) H). rewrite strncmp_begins. cbn [map filter] in *. set (id := left nm x) in *.
      destruct (begins t (str nm id)) eqn:B.
      + set (ids := filter (fun i => begins t (str nm i)) (map (left nm) b)) in *.
        assert (Nid : ~ In id acc) by (intros I; apply NoDup_remove_2 in N; apply N; apply in_or_app; auto).
        assert (Hc' : chain (tree_chain h id c) c (acc ++ [id])).
        { apply list_add_tail_chain; auto. intros [->|I]; auto. apply Nc. now left. }
        assert (F : forall m2 l2, chain h m2 l2 -> (forall y, In y (m2 :: l2) -> y <> c /\ ~ In y acc /\ ~ In y (id :: ids)) -> chain (tree_chain h id c) m2 l2).
        { intros m2 l2 H2 D2. apply (list_add_tail_frame h c acc); auto.
          - intros y [->|Iy] J; destruct (D2 _ J) as (D1 & D3 & D4); auto.
          - intros J. destruct (D2 _ J) as (_ & _ & D4). apply D4. now left. }
        assert (Hm' := F m (a ++ x :: b) Hm D).
        destruct (IH (a ++ [x]) fuel (tree_chain h id c) (acc ++ [id]) ids) as (h' & R & C' & M' & F').
        * rewrite <- List.app_assoc. exact Hm'.
        * exact Hc'.
        * reflexivity.
        * rewrite <- List.app_assoc. exact N.
        * intros I. apply Nc. now right.
        * intros y I. rewrite <- List.app_assoc in I. destruct (D y I) as (D1 & D2 & D3). split; [auto|]. split.
          -- intros J. apply in_app_or in J as [J|[->|[]]]; auto. apply D3. now left.
          -- intros J. apply D3. now right.
        * cbn in L. lia.
        * exists h'. rewrite (chain_next _ _ _ _ _ Hm'). rewrite <- !List.app_assoc in *. cbn [app] in *. split; [exact R|]. split; [exact C'|]. split; [exact M'|].
          intros m2 l2 H2 D2. apply F'; [apply F; auto|]. intros y I. destruct (D2 y I) as (D1 & D3 & D4). split; [auto|]. split.
          -- intros J. apply in_app_or in J as [J|[->|[]]]; auto. apply D4. now left.
          -- intros J. apply D4. now right.
      + rewrite (chain_next _ _ _ _ _ Hm). destruct (IH (a ++ [x]) fuel h acc (filter (fun i => begins t (str nm i)) (map (left nm) b))) as (h' & R & C' & M' & F'); auto.
        * rewrite <- List.app_assoc. exact Hm.
        * intros y I. rewrite <- List.app_assoc in I. auto.
        * cbn in L. lia.
        * exists h'. rewrite <- List.app_assoc in M'. auto.
  Qed.
  Lemma match_map m l fuel h acc ids : chain h m l -> chain h c acc -> ids = filter (fun i => begins t (str nm i)) (map (left nm) l) ->
    NoDup (acc ++ ids) -> ~ In c ids -> (forall x, In x (m :: l) -> x <> c /\ ~ In x acc /\ ~ In x ids) -> (length l <= fuel)%nat ->
    exists h', match_identifiers_for_idmap fuel nm h c m t = Some h' /\ chain h' c (acc ++ ids) /\ chain h' m l /\
      (forall m2 l2, chain h m2 l2 -> (forall x, In x (m2 :: l2) -> x <> c /\ ~ In x acc /\ ~ In x ids) -> chain h' m2 l2).
  Proof.
    intros Hm. intros. unfold match_identifiers_for_idmap. destruct (match_loop_spec m l [] fuel h acc ids) as (h' & R); auto. exists h'.
    assert (nxt h m = hd m l) as -> by (destruct Hm as [_ S]; now apply seg_nxt in S). exact R.
  Qed.
  Lemma ctx_loop_app fuel l1 : forall l2 h, ctx_loop fuel nm h c (l1 ++ l2) t = match ctx_loop fuel nm h c l1 t with Some h => ctx_loop fuel nm h c l2 t | None => None end.
  Proof. induction l1 as [|m l1 IH]; intros l2 h; cbn; auto. destruct (match_identifiers_for_idmap fuel nm h c m t); auto. Qed.
  Lemma candidates_cons m l maps : candidates nm t ((m, l) :: maps) = filter (fun i => begins t (str nm i)) (map (left nm) l) ++ candidates nm t maps.
  Proof. unfold candidates. cbn. now rewrite map_app, filter_app. Qed.
  Lemma ctx_loop_spec fuel : forall maps h acc, (forall m l, In (m, l) maps -> chain h m l) -> chain h c acc ->
    NoDup (acc ++ candidates nm t maps) -> ~ In c (candidates nm t maps) ->
    (forall m l x, In (m, l) maps -> In x (m :: l) -> x <> c /\ ~ In x acc /\ ~ In x (candidates nm t maps)) ->
    (forall m l, In (m, l) maps -> (length l <= fuel)%nat) ->
    exists h', ctx_loop fuel nm h c (map fst maps) t = Some h' /\ chain h' c (acc ++ candidates nm t maps) /\
      (forall m2 l2, chain h m2 l2 -> (forall x, In x (m2 :: l2) -> x <> c /\ ~ In x acc /\ ~ In x (candidates nm t maps)) -> chain h' m2 l2).
  Proof.
    induction maps as [|[m l] maps IH]; intros h acc Hm Hc N Nc D L.
    - exists h. cbn. rewrite List.app_nil_r. auto.
    - rewrite candidates_cons in *. set (ids := filter (fun i => begins t (str nm i)) (map (left nm) l)) in *. set (more := candidates nm t maps) in *.
      cbn [map fst ctx_loop].
      destruct (match_map m l fuel h acc ids) as (h1 & R & C1 & M1 & F1).
      + apply Hm. now left.
      + exact Hc.
      + reflexivity.
      + rewrite List.app_assoc in N. apply NoDup_app_inv in N. tauto.
      + intros I. apply Nc. apply in_or_app. auto.
      + intros x I. destruct (D m l x (or_introl eq_refl) I) as (D1 & D2 & D3). split; [auto|]. split; auto. intros J. apply D3. apply in_or_app. auto.
      + apply (L m). now left.
      + rewrite R. assert (F : forall m2 l2, chain h m2 l2 -> (forall x, In x (m2 :: l2) -> x <> c /\ ~ In x acc /\ ~ In x (ids ++ more)) -> chain h1 m2 l2).
        { intros m2 l2 H2 D2. apply F1; auto. intros x I. destruct (D2 x I) as (D3 & D4 & D5). split; [auto|]. split; auto. intros J. apply D5. apply in_or_app. auto. }
        destruct (IH h1 (acc ++ ids)) as (h' & R' & C' & F').
        * intros m2 l2 I. apply F; [apply Hm; now right|]. intros x J. eapply D; [right; exact I|exact J].
        * exact C1.
        * rewrite <- List.app_assoc. exact N.
        * intros I. apply Nc. apply in_or_app. auto.
        * intros m2 l2 x I J. destruct (D m2 l2 x (or_intror I) J) as (D1 & D2 & D3). split; [auto|]. split.
          -- intros K. apply in_app_or in K as [K|K]; auto. apply D3. apply in_or_app. auto.
          -- intros K. apply D3. apply in_or_app. auto.
        * intros m2 l2 I. apply (L m2). now right.
        * exists h'. rewrite <- List.app_assoc in C'. split; [exact R'|]. split; [exact C'|]. intros m2 l2 H2 D2. apply F'; [apply F; auto|].
          intros x I. destruct (D2 x I) as (D3 & D4 & D5). split; [auto|]. split.
          -- intros K. apply in_app_or in K as [K|K]; auto. apply D5. apply in_or_app. auto.
          -- intros K. apply D5. apply in_or_app. auto.
  Qed.
End Completion.
Lemma completion_ok nm h c ctxs include t maps fuel :
  map fst maps = ctxs ++ match include with Some m => [m] | None => [] end ->
  (forall m l, In (m, l) maps -> chain h m l) ->
  NoDup (candidates nm t maps) -> ~ In c (candidates nm t maps) ->
  (forall m l x, In (m, l) maps -> In x (m :: l) -> x <> c /\ ~ In x (candidates nm t maps)) ->
  (forall m l, In (m, l) maps -> (length l <= fuel)%nat) -> (length (candidates nm t maps) <= fuel)%nat ->
  exists h', do_identifier_completion fuel nm h c ctxs include t = Some (offered t (map (str nm) (candidates nm t maps)), h') /\
    forall m l, In (m, l) maps -> chain h' m l.
Proof.
  intros E Hm N Nc D L Lc.
  assert (H0 : chain (INIT_LIST h c) c []).
  { split; [constructor; [intros []|constructor]|]. unfold INIT_LIST, set_next, set_prev; cbn. rewrite Z.eqb_refl. auto. }
  assert (Hm0 : forall m l, In (m, l) maps -> chain (INIT_LIST h c) m l).
  { intros m l I. eapply chain_frame; [| |apply Hm; exact I]; intros x J; destruct (D m l x I J) as [D1 _]; unfold INIT_LIST, set_next, set_prev; cbn; now rewrite (proj2 (Z.eqb_neq _ _) D1). }
  destruct (ctx_loop_spec nm c t fuel maps (INIT_LIST h c) [] Hm0 H0 N Nc) as (h' & R & C & F); auto.
  { intros m l x I J. destruct (D m l x I J). auto. }
  exists h'. split.
  - unfold do_identifier_completion. assert (find_global_identifiers fuel nm h c ctxs include t = Some h') as ->.
    { unfold find_global_identifiers. rewrite E, ctx_loop_app in R. destruct (ctx_loop fuel nm (INIT_LIST h c) c ctxs t) as [h1|]; [|exact R].
      destruct include as [m|]; [|exact R]. cbn in R. destruct (match_identifiers_for_idmap fuel nm h1 c m t); exact R. }
    unfold create_matches_array. cbn in C. rewrite (for_each_chain _ _ _ _ C Lc). destruct (candidates nm t maps) as [|x [|y l]]; reflexivity.
  - intros m l I. apply F; [auto|]. intros x J. destruct (D m l x I J). auto.
Qed.

(** * The include options *)
Lemma find_nul_at s r : ~ In NUL s -> find_nul (map Some s ++ Some NUL :: r) = Some (length s).
Proof.
  induction s as [|c s IH]; intros N; cbn; [reflexivity|]. destruct (Ascii.eqb_spec c NUL) as [->|_]; [destruct N; now left|].
  rewrite IH by (intros I; apply N; now right). reflexivity.
Qed.
Lemma put_at a x r c : put (a ++ x :: r) (length a) c = Some (a ++ Some c :: r).
Proof. induction a as [|y a IH]; cbn; [reflexivity|]. now rewrite IH. Qed.
Lemma puts_at s : forall a r, (length s <= length r)%nat -> puts (a ++ r) (length a) s = Some (a ++ map Some s ++ skipn (length s) r).
Proof.
  induction s as [|c s IH]; intros a r L; [reflexivity|]. destruct r as [|x r]; [cbn in L; lia|]. cbn [puts]. rewrite put_at.
  assert (E := IH (a ++ [Some c]) r). rewrite app_length in E. cbn [length] in E. rewrite Nat.add_1_r, <- !List.app_assoc in E. apply E. cbn in L. lia.
Qed.
Lemma strcat_at s t r : ~ In NUL s -> (length t <= length r)%nat ->
  strcat (map Some s ++ Some NUL :: r) t = Some (map Some (s ++ t) ++ Some NUL :: skipn (length t) r).
Proof.
  intros N L. unfold strcat. rewrite find_nul_at by exact N. replace (length s) with (length (map Some s)) by apply map_length.
  rewrite puts_at by (rewrite app_length; cbn; lia). rewrite !map_app, app_length. cbn [length map]. rewrite Nat.add_1_r. cbn [skipn]. now rewrite <- !List.app_assoc.
Qed.
Lemma strcat_loop_at l : (forall d, In d l -> ~ In NUL d) -> forall s r, ~ In NUL s -> (length (options l) <= length r)%nat ->
  strcat_loop (map Some s ++ Some NUL :: r) l = Some (map Some (s ++ options l) ++ Some NUL :: skipn (length (options l)) r).
Proof.
  induction l as [|d l IH]; intros H s r N L; [cbn; now rewrite List.app_nil_r|]. cbn [strcat_loop options flat_map] in *. fold (options l) in *.
  rewrite !app_length in L. assert (Nd : ~ In NUL d) by (apply H; now left).
  assert (NI : ~ In NUL (s ++ str_I)) by (intros I; apply in_app_or in I as [I|I]; auto; cbn in I; intuition discriminate).
  rewrite strcat_at by (auto; lia). rewrite strcat_at; [|exact NI|rewrite skipn_length; lia].
  rewrite IH.
  - rewrite !skipn_skipn', !app_length, <- !List.app_assoc. do 4 f_equal. lia.
  - intros; apply H; now right.
  - intros I. apply in_app_or in I as [I|I]; auto.
  - rewrite !skipn_length. lia.
Qed.
Lemma include_len_spec l : Z.of_nat (length (options l)) < 2 ^ 64 -> include_len l = Z.of_nat (length (options l)).
Proof.
  intros H. unfold include_len. assert (G : forall l n, 0 <= n -> n + Z.of_nat (length (options l)) < 2 ^ 64 -> fold_left (fun n d => u64 (n + u64 (Z.of_nat (length d) + 4))) l n = n + Z.of_nat (length (options l))).
  { clear. induction l as [|d l IH]; intros n P H; [cbn; lia|]. cbn [options flat_map fold_left] in *. fold (options l) in *. rewrite !app_length in *. cbn [length str_I] in *.
    assert (E : u64 (n + u64 (Z.of_nat (length d) + 4)) = n + (Z.of_nat (length d) + 4)).
    { unfold u64. rewrite (Z.mod_small (Z.of_nat (length d) + 4)) by lia. apply Z.mod_small. lia. }
    rewrite E, IH by lia. lia. }
  rewrite G by lia. lia.
Qed.
Definition add_all (ds : list text) : dirs := fold_left preprocessor_add_include_dir ds None.
Lemma add_all_spec ds : add_all ds = match ds with [] => None | _ => Some ds end.
Proof.
  assert (G : forall ds l, fold_left preprocessor_add_include_dir ds (Some l) = Some (l ++ ds)).
  { clear. induction ds as [|d ds IH]; intros l; cbn; [now rewrite List.app_nil_r|]. unfold preprocessor_add_include_dir at 2. rewrite IH. now rewrite <- List.app_assoc. }
  unfold add_all. destruct ds as [|d ds]; [reflexivity|]. cbn. apply G.
Qed.
Lemma include_options ds : (forall d, In d ds -> ~ In NUL d) -> Z.of_nat (length (options ds)) + 1 < 2 ^ 64 ->
  include_dir_opts (add_all ds) = Some (map Some (options ds ++ [NUL])).
Proof.
  intros H L. rewrite add_all_spec. destruct ds as [|d ds]; [reflexivity|]. cbn [include_dir_opts]. set (l := d :: ds) in *.
  rewrite include_len_spec by lia. unfold u64. rewrite Z.mod_small by lia. replace (Z.to_nat (Z.of_nat (length (options l)) + 1)) with (S (length (options l))) by lia.
  cbn [repeat put]. assert (E := strcat_loop_at l H [] (repeat None (length (options l)))). cbn [map app] in E. rewrite E.
  - rewrite skipn_all2 by (rewrite repeat_length; lia). now rewrite map_app.
  - intros [].
  - rewrite repeat_length. lia.
Qed.
