(** Lemmas about the scanner model: names and reserved words. *)
From Coq Require Import ZArith List String Ascii Bool Lia.
From Verif Require Import Lexer SpecLexer LexerFacts LexerFacts2.
Import ListNotations.
Local Open Scope string_scope.
Local Open Scope list_scope.

Definition is_LD (c : ascii) : bool := is_L c || is_D c.
Lemma in_chars c l : existsb (Ascii.eqb c) l = true -> In c l.
Proof. intros H. apply existsb_exists in H as (d & Hd & He). apply Ascii.eqb_eq in He as ->. exact Hd. Qed.
Lemma letter_iff c : In c letters <-> is_L c = true.
Proof.
  split.
  - intros H. unfold letters in H. cbn in H. repeat (destruct H as [<-|H]; [reflexivity|]). contradiction.
  - intros H. apply (in_chars c letters). all_chars c; try discriminate H; reflexivity.
Qed.
Lemma digit_iff c : In c digits <-> is_D c = true.
Proof.
  split.
  - intros H. unfold digits in H. cbn in H. repeat (destruct H as [<-|H]; [reflexivity|]). contradiction.
  - intros H. apply (in_chars c digits). all_chars c; try discriminate H; reflexivity.
Qed.
Lemma name_char_iff c : name_char c <-> is_LD c = true.
Proof. unfold name_char, is_LD. rewrite letter_iff, digit_iff, orb_true_iff. tauto. Qed.
Lemma name_iff x : name x <-> exists c v, x = c :: v /\ is_L c = true /\ forallb is_LD v = true.
Proof.
  split; intros (c & v & -> & H1 & H2); exists c, v; (split; [reflexivity|]); (split; [apply letter_iff, H1|]).
  - apply forallb_forall. intros d Hd. apply name_char_iff. rewrite Forall_forall in H2. auto.
  - apply Forall_forall. intros d Hd. apply name_char_iff. rewrite forallb_forall in H2. auto.
Qed.
Lemma name_LD x : name x -> x <> [] /\ forallb is_LD x = true.
Proof.
  rewrite name_iff. intros (c & v & -> & H1 & H2). split; [discriminate|]. cbn [forallb]. unfold is_LD at 1. rewrite H1. exact H2.
Qed.
Lemma name_ends_iff rest : name_ends rest -> match rest with c :: _ => is_LD c = false | [] => True end.
Proof. destruct rest as [|c r]; [auto|]. cbn [name_ends]. rewrite name_char_iff. destruct (is_LD c); tauto. Qed.

Lemma matches_lit k : forall u, matches (lit k) u <-> u = list_ascii_of_string k.
Proof.
  induction k as [|c k IH]; intros u.
  - cbn. apply matches_eps.
  - destruct k as [|d k].
    + cbn. apply matches_char.
    + change (lit (String c (String d k))) with (Cat (Cls (Ascii.eqb c)) (lit (String d k))). rewrite matches_cat. split.
      * intros (a & b & -> & H1 & H2). apply matches_char in H1 as ->. apply IH in H2 as ->. reflexivity.
      * intros ->. exists [c], (list_ascii_of_string (String d k)). split; [reflexivity|]. split; [apply matches_char; reflexivity|apply IH; reflexivity].
Qed.

Section Names.
Variable T : target.
Variable tn : list ascii -> bool.
Notation init := (active T tn INITIAL).
Variable x rest : list ascii.
Hypothesis Hx : name x.
Hypothesis Hrest : name_ends rest.

Notation s := (x ++ rest).
Notation n := (List.length x).

(** The rule matches at most the name [x], and [x] itself just if it is one of [ks]. *)
Definition ok (r : re) (ks : list (list ascii)) : Prop :=
  (forall m, longest r s = Some m -> (m <= n)%nat /\ (m = n -> In x ks)) /\ (In x ks -> longest r s = Some n).

Lemma n_pos : (0 < n)%nat.
Proof. destruct (name_LD x Hx) as [H _]. destruct x; [contradiction|cbn; lia]. Qed.

Lemma ok_words r ks : (forall u, matches r u <-> In u ks) -> Forall (fun k => forallb is_LD k = true) ks -> ok r ks.
Proof.
  intros Hm Hk. destruct (name_LD x Hx) as [Hn HLD]. rewrite Forall_forall in Hk.
  assert (Hmax : forall m, (m <= List.length s)%nat -> matches r (firstn m s) -> (m <= n)%nat).
  { intros m Hl H. apply Hm, Hk in H. rewrite firstn_app, forallb_app in H. apply andb_true_iff in H as [_ H].
    destruct (le_lt_dec m n) as [Hle|Hlt]; [exact Hle|]. exfalso. rewrite app_length in Hl. pose proof (name_ends_iff rest Hrest) as Hr.
    destruct rest as [|c r']; [cbn in Hl; lia|]. destruct (m - n)%nat eqn:Hmn; [lia|]. cbn [firstn forallb] in H. rewrite Hr in H. discriminate H. }
  split.
  - intros m Hl. pose proof (longest_spec s r) as Hs. rewrite Hl in Hs. destruct Hs as (H1 & H2 & _). split; [apply Hmax; assumption|].
    intros ->. apply Hm in H2. rewrite firstn_app, Nat.sub_diag, firstn_all in H2. cbn in H2. rewrite app_nil_r in H2. exact H2.
  - intros Hin. apply longest_app; [apply Hm, Hin|]. intros w w' Hw He H.
    assert (Hf : firstn (n + List.length w) s = x ++ w).
    { rewrite He, app_assoc. rewrite <- app_length. rewrite firstn_app, Nat.sub_diag, firstn_all. cbn. apply app_nil_r. }
    assert (Hle : (n + List.length w <= n)%nat).
    { apply Hmax; [rewrite He, !app_length; lia|]. rewrite Hf. exact H. }
    destruct w; [contradiction|]. cbn in Hle. lia.
Qed.

Lemma ok_lit k : forallb is_LD (list_ascii_of_string k) = true -> ok (lit k) [list_ascii_of_string k].
Proof.
  intros Hk. apply ok_words; [|repeat constructor; exact Hk]. intros u. rewrite matches_lit. cbn. split; [auto|intros [->|[]]; reflexivity].
Qed.

(** The rule does not match at all. *)
Lemma ok_none r : (forall w w', s = w ++ w' -> matches r w -> False) -> ok r [].
Proof.
  intros H. assert (Hl : longest r s = None) by (apply longest_no; intros w w' Hw Hm; eapply H; eauto).
  split; [intros m Hm; congruence|contradiction].
Qed.
Lemma ok_first (f : ascii -> bool) r : (forall u, matches r u -> exists c v, u = c :: v /\ f c = true) ->
  (forall c, is_L c = true -> f c = false) -> ok r [].
Proof.
  intros Hm Hf. apply ok_none. intros w w' Hs H. apply Hm in H as (c & v & -> & Hc).
  destruct (proj1 (name_iff x) Hx) as (d & u & Hd & HL & _). rewrite Hd in Hs. injection Hs as -> _. rewrite (Hf c HL) in Hc. discriminate.
Qed.
Lemma ok_char c : is_L c = false -> ok (Cls (Ascii.eqb c)) [].
Proof.
  intros H. apply (ok_first (Ascii.eqb c)).
  - intros u Hu. apply matches_char in Hu as ->. exists c, []. split; [reflexivity|apply Ascii.eqb_refl].
  - intros d Hd. apply Ascii.eqb_neq. intros ->. congruence.
Qed.
Lemma ok_lit_none c k : is_L c = false -> ok (lit (String c k)) [].
Proof.
  intros H. apply (ok_first (Ascii.eqb c)).
  - intros u Hu. apply matches_lit in Hu as ->. cbn. exists c, (list_ascii_of_string k). split; [reflexivity|apply Ascii.eqb_refl].
  - intros d Hd. apply Ascii.eqb_neq. intros ->. congruence.
Qed.

(** Which rule wins. *)
Fixpoint winner (rs : list rule) (tab : list (list (list ascii))) : option rule :=
  match rs, tab with
  | r :: rs, ks :: tab => if existsb (fun k => if list_eq_dec ascii_dec k x then true else false) ks then Some r else winner rs tab
  | _, _ => None
  end.

Lemma in_dec_iff ks : existsb (fun k => if list_eq_dec ascii_dec k x then true else false) ks = true <-> In x ks.
Proof.
  rewrite existsb_exists. split.
  - intros (k & Hk & H). destruct (list_eq_dec ascii_dec k x); [subst; exact Hk|discriminate].
  - intros H. exists x. split; [exact H|]. destruct (list_eq_dec ascii_dec x x); [reflexivity|contradiction].
Qed.

Lemma choose_winner rs tab : Forall2 (fun r ks => ok (r_re r) ks) rs tab ->
  match winner rs tab with
  | Some r => choose rs s = Some (r, n)
  | None => match choose rs s with Some (_, m) => (m < n)%nat | None => True end
  end.
Proof.
  pose proof n_pos as Hn. induction 1 as [|r ks rs tab (H1 & H2) Hrs IH]; [cbn; exact I|]. cbn [winner choose].
  assert (Hle : forall r' m, choose rs s = Some (r', m) -> (m <= n)%nat).
  { intros r' m Hc. destruct (winner rs tab); rewrite Hc in IH; [injection IH as _ ->; lia|lia]. }
  destruct (existsb _ ks) eqn:He.
  - apply in_dec_iff in He. rewrite (H2 He). revert Hn Hle. generalize (List.length x). intros k Hk Hle. destruct k as [|k]; [lia|].
    destruct (choose rs s) as [[r' m]|] eqn:Hc; [|reflexivity].
    replace (S k <? m)%nat with false; [reflexivity|]. symmetry. apply Nat.ltb_ge. apply (Hle r' m). reflexivity.
  - assert (Hlt : forall m, longest (r_re r) s = Some m -> (m < n)%nat).
    { intros m Hm. destruct (H1 m Hm) as [H3 H4]. destruct (Nat.eq_dec m n) as [->|]; [|lia]. specialize (H4 eq_refl). apply in_dec_iff in H4. congruence. }
    destruct (longest (r_re r) s) as [[|m]|]; [exact IH| |exact IH]. specialize (Hlt _ eq_refl).
    destruct (winner rs tab) as [r'|].
    + rewrite IH. replace (S m <? n)%nat with true; [reflexivity|]. symmetry. apply Nat.ltb_lt. exact Hlt.
    + destruct (choose rs s) as [[r' m']|]; [|exact Hlt]. destruct (S m <? m')%nat; [exact IH|exact Hlt].
Qed.

Hypothesis Hsp : ~ special x.

Lemma not_special k : In k ["__attribute__"; "__asm"; "__asm__"; "L"] -> x <> list_ascii_of_string k.
Proof. intros Hk ->. apply Hsp. unfold special. rewrite string_of_list_ascii_of_string. exact Hk. Qed.

(** A pattern that starts with a word of name characters and goes on with another character. *)
Lemma ok_special k r : forallb is_LD (list_ascii_of_string k) = true -> x <> list_ascii_of_string k ->
  (forall u, matches r u -> exists c v, u = list_ascii_of_string k ++ c :: v /\ is_LD c = false) -> ok r [].
Proof.
  intros Hk Hne Hm. apply ok_none. intros w w' Hs H. apply Hm in H as (c & v & -> & Hc). apply Hne.
  rewrite <- app_assoc in Hs. destruct (name_LD x Hx) as [_ HLD].
  apply (span_unique is_LD x (list_ascii_of_string k) rest ((c :: v) ++ w') HLD Hk (name_ends_iff rest Hrest) Hc Hs).
Qed.

Lemma blank_not_LD c : is_blank c = true -> is_LD c = false.
Proof. unfold is_blank. rewrite orb_true_iff, !Ascii.eqb_eq. intros [<-|<-]; reflexivity. Qed.

(** Blanks and then a parenthesis. *)
Lemma matches_paren k r u : matches (Cat (Star (Cls is_blank)) (Cat (lit (String "(" k)) r)) u -> exists c v, u = c :: v /\ is_LD c = false.
Proof.
  intros H. apply matches_cat in H as (a & b & -> & H1 & H2). apply matches_star_cls in H1. destruct a as [|c a].
  - apply matches_cat in H2 as (d & e & -> & H2 & _). apply matches_lit in H2 as ->. cbn. do 2 eexists. split; [reflexivity|reflexivity].
  - exists c, (a ++ b). split; [reflexivity|]. apply blank_not_LD. cbn in H1. apply andb_true_iff in H1. tauto.
Qed.

Definition attribute_re : re := Cat (lit "__attribute__") (Cat (Star (Cls is_blank)) (Cat (lit "((") (Cat (Star (Cls is_any)) (lit "))")))).
Definition restrict_re : re := Cat (opt (lit "__")) (lit "restrict").
Definition asm_re : re := Cat (lit "__asm") (Cat (opt (lit "__")) (Cat (Star (Cls is_blank)) (Cat (lit "(") (Cat (Star (Cls is_any)) (lit ")"))))).
Definition inline_re : re := Cat (opt (lit "__")) (Cat (lit "inline") (opt (lit "__"))).
Notation txt := list_ascii_of_string.

Lemma ok_attribute : ok attribute_re [].
Proof.
  apply (ok_special "__attribute__"); [reflexivity|apply not_special; cbn; auto|]. intros u H. apply matches_cat in H as (a & b & -> & H1 & H2).
  apply matches_lit in H1 as ->. apply matches_paren in H2 as (c & v & -> & Hc). eauto.
Qed.
Lemma ok_asm : ok asm_re [].
Proof.
  apply ok_none. intros w w' Hs H. apply matches_cat in H as (a & b & -> & H1 & H2). apply matches_lit in H1 as ->.
  apply matches_cat in H2 as (d & e & -> & H2 & H3). apply matches_paren in H3 as (c & v & -> & Hc). destruct (name_LD x Hx) as [_ HLD].
  rewrite <- !app_assoc in Hs. apply matches_opt in H2 as [->|H2].
  - apply (not_special "__asm"); [cbn; auto|].
    apply (span_unique is_LD x (txt "__asm") rest ((c :: v) ++ w') HLD eq_refl (name_ends_iff rest Hrest) Hc Hs).
  - apply matches_lit in H2 as ->. apply (not_special "__asm__"); [cbn; auto|].
    apply (span_unique is_LD x (txt "__asm__") rest ((c :: v) ++ w') HLD eq_refl (name_ends_iff rest Hrest) Hc Hs).
Qed.
Lemma ok_restrict : ok restrict_re [txt "restrict"; txt "__restrict"].
Proof.
  apply ok_words; [|repeat constructor]. intros u. unfold restrict_re. rewrite matches_cat. split.
  - intros (a & b & -> & H1 & H2). apply matches_lit in H2 as ->. apply matches_opt in H1 as [->|H1]; [left; reflexivity|].
    apply matches_lit in H1 as ->. right. left. reflexivity.
  - intros [<-|[<-|[]]].
    + exists [], (txt "restrict"). split; [reflexivity|]. split; [apply matches_opt; auto|apply matches_lit; reflexivity].
    + exists (txt "__"), (txt "restrict"). split; [reflexivity|]. split; [apply matches_opt; right; apply matches_lit; reflexivity|apply matches_lit; reflexivity].
Qed.
Lemma ok_inline : ok inline_re [txt "inline"; txt "__inline"; txt "inline__"; txt "__inline__"].
Proof.
  apply ok_words; [|repeat constructor]. intros u. unfold inline_re. rewrite matches_cat. split.
  - intros (a & b & -> & H1 & H2). apply matches_cat in H2 as (c & d & -> & H2 & H3). apply matches_lit in H2 as ->.
    apply matches_opt in H1 as [->|H1], H3 as [->|H3].
    + left. reflexivity.
    + apply matches_lit in H3 as ->. right. right. left. reflexivity.
    + apply matches_lit in H1 as ->. right. left. reflexivity.
    + apply matches_lit in H3 as ->. apply matches_lit in H1 as ->. right. right. right. left. reflexivity.
  - assert (H : forall a b, (a = [] \/ a = txt "__") -> (b = [] \/ b = txt "__") -> exists u0 v, a ++ txt "inline" ++ b = u0 ++ v /\
      matches (opt (lit "__")) u0 /\ matches (Cat (lit "inline") (opt (lit "__"))) v).
    { intros a b Ha Hb. exists a, (txt "inline" ++ b). split; [reflexivity|]. split.
      - apply matches_opt. destruct Ha as [->| ->]; [auto|right; apply matches_lit; reflexivity].
      - constructor; [apply matches_lit; reflexivity|]. apply matches_opt. destruct Hb as [->| ->]; [auto|right; apply matches_lit; reflexivity]. }
    intros [<-|[<-|[<-|[<-|[]]]]].
    + apply (H [] []); auto.
    + apply (H (txt "__") []); auto.
    + apply (H [] (txt "__")); auto.
    + apply (H (txt "__") (txt "__")); auto.
Qed.
Lemma ok_ident : ok ident_re [x].
Proof.
  destruct (proj1 (name_iff x) Hx) as (c & v & Hc & HL & HLD).
  assert (Hl : longest ident_re s = Some n).
  { apply longest_app; [apply matches_ident; eauto|]. intros w w' Hw He Hm. apply matches_ident in Hm as (d & u & Hd & _ & Hu).
    rewrite Hc in Hd. injection Hd as _ <-. rewrite forallb_app in Hu. apply andb_true_iff in Hu as [_ Hu].
    pose proof (name_ends_iff rest Hrest) as Hr. rewrite He in Hr. destruct w as [|e w]; [contradiction|]. cbn [app] in Hr. cbn [forallb] in Hu.
    change (is_L e || is_D e) with (is_LD e) in Hu. rewrite Hr in Hu. discriminate Hu. }
  split; [|auto]. intros m Hm. rewrite Hl in Hm. injection Hm as <-. split; [lia|]. intros _. left. reflexivity.
Qed.
Lemma ok_number r : (forall u, matches r u -> exists c v, u = c :: v /\ (c = "-"%char \/ is_D c = true)) -> ok r [].
Proof.
  intros H. apply (ok_first (fun c => Ascii.eqb c "-" || is_D c)).
  - intros u Hu. apply H in Hu as (c & v & -> & Hc). exists c, v. split; [reflexivity|]. apply orb_true_iff. rewrite Ascii.eqb_eq. exact Hc.
  - intros c Hc. clear - Hc. all_chars c; try reflexivity; discriminate Hc.
Qed.
Lemma first_D ds : ds <> [] -> forallb is_D ds = true -> forall v, exists c v', ds ++ v = c :: v' /\ (c = "-"%char \/ is_D c = true).
Proof. destruct ds as [|d ds]; [contradiction|]. intros _ H v. exists d, (ds ++ v). cbn in H. apply andb_true_iff in H. tauto. Qed.
Lemma ok_char_re : ok char_re [].
Proof.
  apply ok_none. intros w w' Hs H. apply matches_chars in H as (ps & _ & _ & H).
  destruct (proj1 (name_iff x) Hx) as (d & u & Hd & HL & HLD). destruct H as [->| ->].
  - rewrite Hd in Hs. injection Hs as -> _. discriminate HL.
  - apply (not_special "L"); [cbn; auto|]. apply (span_unique is_LD x (txt "L") rest (quoted ps ++ w')); auto.
    + rewrite Hd. cbn [forallb]. unfold is_LD at 1. rewrite HL. exact HLD.
    + apply name_ends_iff, Hrest.
    + reflexivity.
Qed.

(** The words of the rules, in order. *)
Definition table : list (list (list ascii)) :=
  [[]; [txt "_Nullable"]; [txt "_Nonnull"]; [txt "restrict"; txt "__restrict"]; []; [txt "__extension__"]; [txt "volatile"];
   [txt "inline"; txt "__inline"; txt "inline__"; txt "__inline__"]] ++
  map (fun k => [txt k]) ["auto"; "break"; "case"; "char"] ++ [[]] ++
  map (fun k => [txt k]) ["const"; "continue"; "default"; "do"; "double"; "else"; "enum"; "extern"; "float"; "for"; "goto"; "if";
   "int"; "_Bool"; "long"; "register"; "return"; "short"; "signed"; "sizeof"; "static"; "struct"; "switch"; "typedef"; "union";
   "unsigned"; "void"; "while"] ++ [[]; [x]] ++ repeat [] 50.

Lemma table_ok : Forall2 (fun r ks => ok (r_re r) ks) init table.
Proof.
  unfold table.
  assert (Hnum : ok int_re [] /\ ok float_re [] /\ ok hex_re []).
  { split; [|split]; apply ok_number; intros u H.
    - apply matches_int in H as (ds & [->| ->] & H1 & H2); [|eauto]. destruct (first_D ds H1 H2 []) as (c & v & Hc & H). rewrite app_nil_r in Hc. eauto.
    - apply matches_float in H as (a & b & [->| ->] & H1 & _ & H2 & _); [apply first_D; assumption|eauto].
    - apply matches_hex in H as (hs & -> & _). exists "0"%char, ("x"%char :: hs). auto. }
  destruct Hnum as (Hint & Hfloat & Hhex).
  assert (Htarget : Forall2 (fun r ks => ok (r_re r) ks) (target_rules T) [[]]).
  { destruct T; (constructor; [|constructor]).
    - apply (ok_first (Ascii.eqb "#")).
      + intros u H. apply matches_cat in H as (a & b & -> & H & _). apply matches_lit in H as ->. do 2 eexists. split; reflexivity.
      + intros c Hc. clear - Hc. all_chars c; try reflexivity; discriminate Hc.
    - apply (ok_first (Ascii.eqb "#")).
      + intros u H. apply matches_cat in H as (a & b & -> & H & _). apply matches_char in H as ->. do 2 eexists. split; reflexivity.
      + intros c Hc. clear - Hc. all_chars c; try reflexivity; discriminate Hc. }
  assert (Hblank : ok (Cls (fun c => Ascii.eqb c " " || Ascii.eqb c tab || Ascii.eqb c cr)) []).
  { apply (ok_first (fun c => Ascii.eqb c " " || Ascii.eqb c tab || Ascii.eqb c cr)).
    - intros u H. apply matches_cls in H as (c & -> & H). eauto.
    - intros c Hc. clear - Hc. all_chars c; try reflexivity; discriminate Hc. }
  unfold active, rules. cbn [app filter existsb r_conds ignore keyword punct orb].
  assert (Htr : exists r, target_rules T = [r] /\ r_conds r = [INITIAL] /\ ok (r_re r) []).
  { inversion Htarget as [|r ks rs tab Hr Hrs]; subst. inversion Hrs; subst. exists r. split; [reflexivity|]. split; [|exact Hr].
    clear - H. destruct T; apply (f_equal (fun l => match l with a :: _ => r_conds a | [] => [] end)) in H; symmetry; exact H || exact (eq_sym H). }
  destruct Htr as ([rc rr ra] & -> & Hrt & Hokt). cbn in Hrt. subst rc.
  cbn [app filter existsb r_conds ignore keyword punct orb map repeat].
  repeat first [apply Forall2_nil | apply Forall2_cons; [first [exact ok_attribute | exact ok_restrict | exact ok_asm | exact ok_inline | exact ok_ident
    | exact Hint | exact Hfloat | exact Hhex | exact ok_char_re | exact Hblank | exact Hokt
    | apply ok_char; reflexivity | apply ok_lit; reflexivity | apply ok_lit_none; reflexivity ]|]].
Qed.
End Names.

(** What a name is read as. *)
Definition name_act (tn : list ascii -> bool) (x : list ascii) (st : lexst) : act :=
  match entry x with
  | Some (Some k) => Emit (KW k) (if (String.eqb k "STRUCT" || String.eqb k "UNION")%bool then mklex compound_start_cond (l_buf st) else st)
  | Some None => Skip st
  | None => Emit (if tn x then TYPE_NAME x else IDENTIFIER x) st
  end.

Lemma winner_skip x i : forall rs tab, (i <= List.length rs)%nat -> (forall ks, In ks (firstn i tab) -> ~ In x ks) ->
  winner x rs tab = winner x (skipn i rs) (skipn i tab).
Proof.
  induction i as [|i IH]; intros rs tab Hl Hk; [reflexivity|]. destruct rs as [|r rs]; [cbn in Hl; lia|].
  destruct tab as [|ks tab]; [cbn [skipn]; destruct (skipn i rs); reflexivity|]. cbn [skipn winner].
  destruct (existsb _ ks) eqn:He; [apply in_dec_iff in He; exfalso; apply (Hk ks); [left; reflexivity|exact He]|].
  apply IH; [cbn in Hl; lia|]. intros ks' Hk'. apply Hk. right. exact Hk'.
Qed.
Lemma winner_name T tn x : exists r, winner x (active T tn INITIAL) (table x) = Some r /\ forall st, r_act r x st = name_act tn x st.
Proof.
  destruct (in_dec (list_eq_dec ascii_dec) x (map (fun p => list_ascii_of_string (fst p)) reserved)) as [Hin|Hout].
  - unfold reserved in Hin. cbn [map fst] in Hin.
    repeat (destruct Hin as [<-|Hin]; [destruct T; (eexists; split; [reflexivity|intros st; reflexivity])|]). contradiction.
  - assert (He : entry x = None).
    { unfold entry. destruct (find _ _) as [[k o]|] eqn:Hf; [|reflexivity]. exfalso. apply Hout. apply find_some in Hf as [Hf He]. cbn in He.
      apply String.eqb_eq in He. apply in_map_iff. exists (k, o). split; [|exact Hf]. cbn. subst k. apply list_ascii_of_string_of_list_ascii. }
    exists (mkrule [INITIAL] ident_re (fun text st => Emit (if tn text then TYPE_NAME text else IDENTIFIER text) st)).
    split; [|intros st; unfold name_act; rewrite He; reflexivity].
    unfold reserved in Hout. cbn [map fst] in Hout.
    rewrite (winner_skip x 42).
    + assert (Hs : exists l, skipn 42 (active T tn INITIAL) =
        mkrule [INITIAL] ident_re (fun text st => Emit (if tn text then TYPE_NAME text else IDENTIFIER text) st) :: l)
        by (unfold active, rules; destruct T; cbn [app filter existsb r_conds ignore keyword punct orb target_rules skipn]; eexists; reflexivity).
      destruct Hs as (l & ->). cbn [table skipn winner app map repeat existsb]. destruct (list_eq_dec ascii_dec x x); [reflexivity|contradiction].
    + destruct T; cbn; lia.
    + intros ks Hks Hin. apply Hout. clear Hout He. cbn [firstn table app map repeat] in Hks.
      repeat (destruct Hks as [<-|Hks]; [cbn in Hin |- *; tauto|]). contradiction.
Qed.

Section Lex.
Variable T : target.
Variable tn : list ascii -> bool.

Lemma lex_name fuel st x rest : l_cond st = INITIAL -> name x -> name_ends rest -> ~ special x ->
  yylex T tn (S fuel) st (x ++ rest) =
    match entry x with
    | Some (Some k) => Token (KW k) (if (String.eqb k "STRUCT" || String.eqb k "UNION")%bool then mklex compound_start_cond (l_buf st) else st) rest
    | Some None => yylex T tn fuel st rest
    | None => Token (if tn x then TYPE_NAME x else IDENTIFIER x) st rest
    end.
Proof.
  intros Hst Hx Hrest Hsp. destruct (winner_name T tn x) as (r & Hr & Ha).
  pose proof (choose_winner x rest Hx _ _ (table_ok T tn x rest Hx Hrest Hsp)) as Hc. rewrite Hr in Hc.
  destruct (name_LD x Hx) as [Hn _]. specialize (Ha st). unfold name_act in Ha. rewrite <- Hst in Hc.
  destruct (entry x) as [[k|]|].
  - apply (yylex_emit T tn fuel st x rest r _ _ Hn Hc Ha).
  - apply (yylex_skip T tn fuel st x rest r _ Hn Hc Ha).
  - apply (yylex_emit T tn fuel st x rest r _ _ Hn Hc Ha).
Qed.

(** After [struct] and [union]. *)
Lemma lex_tag fuel st x rest : l_cond st = compound_start_cond -> name x -> name_ends rest ->
  yylex T tn (S fuel) st (x ++ rest) = Token (IDENTIFIER x) (mklex INITIAL (l_buf st)) rest.
Proof.
  intros Hst Hx Hrest. destruct (name_LD x Hx) as [Hn _].
  apply (yylex_emit T tn fuel st x rest (mkrule [compound_start_cond] ident_re (fun text st => Emit (IDENTIFIER text) (begin INITIAL st))) _ _ Hn); [|reflexivity].
  rewrite Hst.
  assert (Hl : longest ident_re (x ++ rest) = Some (List.length x)) by (apply (ok_ident x rest Hx Hrest); left; reflexivity).
  destruct (proj1 (name_iff x) Hx) as (c & v & Hc & HL & HLD). rewrite Hc in Hl |- *. cbn [app] in *. rewrite choose_alive.
  replace (filter _ _) with [mkrule [compound_start_cond] ident_re (fun text st => Emit (IDENTIFIER text) (begin INITIAL st))].
  - cbn [choose r_re]. rewrite Hl. reflexivity.
  - clear - HL. destruct T; all_chars c; try discriminate HL; reflexivity.
Qed.

(** A name with a number behind a minus sign directly after it. *)
Lemma lex_name_minus fuel st x ds v rest : l_cond st = INITIAL -> name x -> ~ special x -> entry x = None ->
  numeral 10 ds v -> number_ends rest ->
  exists st', yylex T tn (S fuel) st (x ++ "-"%char :: ds ++ rest) = Token (if tn x then TYPE_NAME x else IDENTIFIER x) st' ("-"%char :: ds ++ rest) /\
    yylex T tn (S fuel) st' ("-"%char :: ds ++ rest) = Token (INTEGER (- v)) st' rest.
Proof.
  intros Hst Hx Hsp He Hv Hr. exists st. split; [|apply lex_negative; assumption].
  rewrite lex_name; [rewrite He; reflexivity|assumption..| |assumption]. cbn. rewrite name_char_iff. discriminate.
Qed.
End Lex.
