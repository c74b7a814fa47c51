(** The scanner reads every text of a token sequence as these tokens. *)
From Coq Require Import ZArith List String Ascii Bool Lia Arith.
From Verif Require Import Lexer SpecLexer SpecScan LexerFacts LexerFacts2 LexerFacts3.
Import ListNotations.
Local Open Scope string_scope.
Local Open Scope list_scope.

Fixpoint prefixb (k s : list ascii) : bool :=
  match k, s with
  | [], _ => true
  | c :: k, d :: s => Ascii.eqb c d && prefixb k s
  | _, [] => false
  end.
Lemma prefixb_iff k : forall s, prefixb k s = true <-> exists r, s = k ++ r.
Proof.
  induction k as [|c k IH]; intros s; cbn; [split; eauto|].
  destruct s as [|d s]; [split; [discriminate|intros [r H]; discriminate H]|].
  rewrite andb_true_iff, IH, Ascii.eqb_eq. split; [intros [-> [r ->]]; eauto|intros [r [= -> ->]]; eauto].
Qed.
Lemma longest_lit k s : longest (lit k) s = if prefixb (list_ascii_of_string k) s then Some (List.length (list_ascii_of_string k)) else None.
Proof.
  destruct (prefixb _ s) eqn:H.
  - apply prefixb_iff in H as [r ->]. apply longest_app; [apply matches_lit; reflexivity|].
    intros w w' Hw _ Hm. apply matches_lit in Hm. rewrite <- (app_nil_r (list_ascii_of_string k)) in Hm at 2.
    apply app_inv_head in Hm. contradiction.
  - apply longest_no. intros w w' -> Hm. apply matches_lit in Hm as ->.
    assert (prefixb (list_ascii_of_string k) (list_ascii_of_string k ++ w') = true) by (apply prefixb_iff; eauto). congruence.
Qed.

Notation txt := list_ascii_of_string.

Section Scan.
Variable T : target.
Variable tn : list ascii -> bool.
Notation init := (active T tn INITIAL).

Ltac first_char := rewrite choose_alive; f_equal; destruct T; reflexivity.
Lemma c_eq s : choose init ("="%char :: s) = choose [keyword "==" "EQUATE"; punct "="] ("="%char :: s). Proof. first_char. Qed.
Lemma c_not s : choose init ("!"%char :: s) = choose [keyword "!=" "NOT_EQUATE"; punct "!"] ("!"%char :: s). Proof. first_char. Qed.
Lemma c_dot s : choose init ("."%char :: s) = choose [keyword "..." "ELLIPSIS"; punct "."] ("."%char :: s). Proof. first_char. Qed.
Lemma c_lt s : choose init ("<"%char :: s) = choose [keyword "<REPL>" "REPL"; keyword "<=" "LESS_OR_EQUAL"; keyword "<<=" "LSHIFT_ASSIGN"; punct "<"; keyword "<<" "SHIFT_LEFT"] ("<"%char :: s).
Proof. first_char. Qed.
Lemma c_gt s : choose init (">"%char :: s) = choose [keyword ">=" "GREATER_OR_EQUAL"; keyword ">>=" "RSHIFT_ASSIGN"; punct ">"; keyword ">>" "SHIFT_RIGHT"] (">"%char :: s).
Proof. first_char. Qed.
Lemma c_plus s : choose init ("+"%char :: s) = choose [keyword "+=" "ADD_ASSIGN"; punct "+"; keyword "++" "INC"] ("+"%char :: s). Proof. first_char. Qed.
Lemma c_div s : choose init ("/"%char :: s) = choose [keyword "/=" "DIV_ASSIGN"; punct "/"] ("/"%char :: s). Proof. first_char. Qed.
Lemma c_and s : choose init ("&"%char :: s) = choose [punct "&"; keyword "&&" "BOOL_OP_AND"] ("&"%char :: s). Proof. first_char. Qed.
Lemma c_or s : choose init ("|"%char :: s) = choose [punct "|"; keyword "||" "BOOL_OP_OR"] ("|"%char :: s). Proof. first_char. Qed.
Lemma c_xor s : choose init ("^"%char :: s) = choose [keyword "^=" "XOR_ASSIGN"; punct "^"] ("^"%char :: s). Proof. first_char. Qed.
Lemma c_one c s : In c (list_ascii_of_string "();,:[]*%{}?~") -> choose init (c :: s) = choose [punct c] (c :: s).
Proof. intros H. repeat (destruct H as [<-|H]; [first_char|]). destruct H. Qed.

(** A minus sign that is not followed by a digit starts no number. *)
Lemma minus_int s : match s with c :: _ => is_D c = false | [] => True end -> longest int_re ("-"%char :: s) = None.
Proof.
  intros H. apply longest_no. intros w w' E Hm. apply matches_int in Hm as (ds & [->| ->] & Hn & Hd).
  - destruct ds as [|d ds]; [contradiction|]. injection E as <- _. discriminate Hd.
  - injection E as ->. destruct ds as [|d ds]; [contradiction|]. cbn in Hd. apply andb_true_iff in Hd as [Hd _]. cbn in H. congruence.
Qed.
Lemma minus_float s : match s with c :: _ => is_D c = false | [] => True end -> longest float_re ("-"%char :: s) = None.
Proof.
  intros H. apply longest_no. intros w w' E Hm. apply matches_float in Hm as (a & b & [->| ->] & Ha & Hb & Ha' & Hb').
  - destruct a as [|d a]; [contradiction|]. injection E as <- _. discriminate Ha'.
  - injection E as ->. destruct a as [|d a]; [contradiction|]. cbn in Ha'. apply andb_true_iff in Ha' as [Hd _]. cbn in H. congruence.
Qed.

Lemma neqb (c d : ascii) : d <> c -> Ascii.eqb c d = false.
Proof. intros H. apply Ascii.eqb_neq. congruence. Qed.

Lemma minus_step s : match s with c :: _ => is_D c = false | [] => True end -> choose init ("-"%char :: s) =
  choose [keyword "-=" "SUB_ASSIGN"; punct "-"; keyword "--" "DEC"; keyword "->" "PTR_ACCESS"] ("-"%char :: s).
Proof. intros H. rewrite choose_minus. cbn [choose r_re int_rule float_rule]. now rewrite minus_int, minus_float. Qed.
Lemma minus_next d : ~ In d (list_ascii_of_string "-=>0123456789") -> is_D d = false.
Proof. intros H. destruct (is_D d) eqn:E; [|reflexivity]. exfalso. apply H. apply digit_iff in E. cbn [list_ascii_of_string In]. now do 3 right. Qed.

Ltac facts H := cbn [list_ascii_of_string In] in H;
  repeat match type of H with
  | ~ (_ = _ \/ _) => let H1 := fresh in let H2 := fresh in apply Decidable.not_or in H as [H1 H2]; rename H2 into H;
      match type of H1 with ?c <> ?d => pose proof (neqb c d (fun e => H1 (eq_sym e))) end
  end.
Ltac known := repeat match goal with
  | |- context [Ascii.eqb ?a ?b] =>
      let v := eval vm_compute in (Ascii.eqb a b) in
      match v with true => change (Ascii.eqb a b) with true | false => change (Ascii.eqb a b) with false end
  | H : Ascii.eqb ?a ?b = false |- context [Ascii.eqb ?a ?b] => rewrite H
  end.
Ltac choice := cbn [choose r_re keyword punct int_rule float_rule]; rewrite ?longest_lit, ?longest_char;
  cbn [list_ascii_of_string prefixb app List.length]; known; cbn [andb];
  cbn [Nat.ltb Nat.leb]; known; cbn [andb].

Lemma symbol_choice w t bad rest : In (w, t, bad) symbols -> not_next bad rest ->
  exists r, choose init (list_ascii_of_string w ++ rest) = Some (r, List.length (list_ascii_of_string w)) /\
    (forall st, r_act r (list_ascii_of_string w) st = Emit t st) /\ list_ascii_of_string w <> [] /\ tag_word t = false.
Proof.
  intros H N. unfold symbols in H.
  repeat (destruct H as [H|H]; [injection H as <- <- <-; cbn [list_ascii_of_string app];
    (destruct rest as [|d rest]; cbn [not_next] in N; [|pose proof N as N0; facts N]);
    (rewrite c_eq || rewrite c_not || rewrite c_dot || rewrite c_lt || rewrite c_gt || rewrite c_plus || rewrite c_div || rewrite c_and
      || rewrite c_or || rewrite c_xor || (rewrite minus_step by solve [reflexivity | exact I | now apply minus_next]) || (rewrite c_one by (cbn; tauto)));
    (eexists; split; [choice; reflexivity|split; [intros; reflexivity|split; [discriminate|reflexivity]]]) |]); destruct H.
Qed.

(** ** White space *)
Lemma longest_cls f c s : longest (Cls f) (c :: s) = if f c then Some 1%nat else None.
Proof.
  destruct (f c) eqn:H.
  - apply (longest_app (Cls f) [c] s); [apply matches_cls; eauto|]. intros w w' Hw _ Hm. apply matches_cls in Hm as (d & E & _).
    destruct w; [contradiction|discriminate E].
  - apply longest_no. intros w w' E Hm. apply matches_cls in Hm as (d & -> & Hd). injection E as <- _. congruence.
Qed.
Definition blank_rule : rule :=
  mkrule [INITIAL; compound_start_cond] (Cls (fun c => Ascii.eqb c " " || Ascii.eqb c tab || Ascii.eqb c cr)%bool) (fun _ st => Skip st).
Definition newline_rule : rule := mkrule [INITIAL; compound_start_cond] (Cls (Ascii.eqb nl)) (fun _ st => Skip st).
Lemma lex_white c fuel st s : In c white -> l_cond st <> str_lit -> yylex T tn (S fuel) st (c :: s) = yylex T tn fuel st s.
Proof.
  intros H Hst.
  assert (E : exists r, choose (active T tn (l_cond st)) (c :: s) = Some (r, 1%nat) /\ r_act r [c] st = Skip st).
  { exists (if Ascii.eqb c nl then newline_rule else blank_rule). split; [|destruct (Ascii.eqb c nl); reflexivity]. rewrite choose_alive.
    replace (filter _ _) with [if Ascii.eqb c nl then newline_rule else blank_rule].
    - cbn [choose r_re]. destruct (Ascii.eqb c nl) eqn:E; cbn [r_re newline_rule blank_rule]; rewrite longest_cls.
      + rewrite Ascii.eqb_sym, E. reflexivity.
      + repeat (destruct H as [<-|H]; [reflexivity || discriminate E|]). destruct H.
    - destruct (l_cond st); [|contradiction|]; (repeat (destruct H as [<-|H]; [destruct T; reflexivity|]); destruct H). }
  destruct E as (r & E & A). apply (yylex_skip T tn fuel st [c] s r st); [discriminate|exact E|exact A].
Qed.

(** ** Floating point numbers *)
Lemma float_matches sign a b : sign = [] \/ sign = ["-"%char] -> a <> [] -> b <> [] -> forallb is_D a = true -> forallb is_D b = true ->
  matches float_re (sign ++ a ++ "."%char :: b).
Proof.
  intros Hs Ha Hb Ha' Hb'. unfold float_re. apply matches_cat. exists sign, (a ++ "."%char :: b). split; [reflexivity|].
  split; [apply matches_opt; destruct Hs as [->| ->]; [auto|right; apply matches_char; reflexivity]|].
  apply matches_cat. exists a, ("."%char :: b). split; [reflexivity|]. split; [apply matches_plus_cls; auto|].
  apply matches_cat. exists ["."%char], b. split; [reflexivity|]. split; [apply matches_char; reflexivity|apply matches_plus_cls; auto].
Qed.
Lemma longest_float sign a b rest : sign = [] \/ sign = ["-"%char] -> a <> [] -> b <> [] -> forallb is_D a = true -> forallb is_D b = true ->
  match rest with c :: _ => is_D c = false | [] => True end ->
  longest float_re ((sign ++ a ++ "."%char :: b) ++ rest) = Some (List.length (sign ++ a ++ "."%char :: b)).
Proof.
  intros Hs Ha Hb Ha' Hb' Hr. apply longest_app; [now apply float_matches|]. intros w w' Hw -> Hm.
  apply matches_float in Hm as (a1 & b1 & E & _ & _ & Ha1 & Hb1).
  assert (E' : a ++ "."%char :: b ++ w = a1 ++ "."%char :: b1).
  { rewrite <- !app_assoc in E. cbn [app] in E. destruct Hs as [->| ->]; cbn [app] in E.
    - destruct E as [E|E]; [exact E|]. destruct a as [|d a]; [contradiction|]. injection E as -> _. discriminate Ha'.
    - destruct E as [E|E]; [destruct a1 as [|d a1]; [discriminate E|injection E as <- _; discriminate Ha1]|now injection E as E]. }
  destruct (span_unique is_D a a1 ("."%char :: b ++ w) ("."%char :: b1) Ha' Ha1 eq_refl eq_refl E') as [_ E2].
  injection E2 as <-. rewrite forallb_app in Hb1. apply andb_true_iff in Hb1 as [_ Hb1]. destruct w as [|c w]; [contradiction|].
  cbn [app] in Hr. cbn [forallb] in Hb1. rewrite Hr in Hb1. discriminate Hb1.
Qed.
Lemma lex_float fuel st sign a b rest : l_cond st = INITIAL -> sign = [] \/ sign = ["-"%char] -> a <> [] -> b <> [] ->
  Forall decimal_digit a -> Forall decimal_digit b -> name_ends rest ->
  yylex T tn (S fuel) st ((sign ++ a ++ "."%char :: b) ++ rest) = Token (FLOAT_CST (sign ++ a ++ "."%char :: b)) st rest.
Proof.
  intros Hst Hs Ha Hb Ha' Hb' He.
  assert (D : forall l, Forall decimal_digit l -> forallb is_D l = true).
  { intros l Hl. apply forallb_forall. intros x Hx. rewrite Forall_forall in Hl. apply decimal_digit_iff. auto. }
  apply D in Ha', Hb'.
  assert (Hr : match rest with c :: _ => is_D c = false | [] => True end).
  { destruct rest as [|c r]; [exact I|]. apply name_ends_iff in He. cbn in He. apply orb_false_iff in He. tauto. }
  pose proof (longest_float sign a b rest Hs Ha Hb Ha' Hb' Hr) as HF.
  assert (HI : longest int_re ((sign ++ a ++ "."%char :: b) ++ rest) = Some (List.length (sign ++ a))).
  { rewrite <- !app_assoc. cbn [app]. destruct Hs as [->| ->]; cbn [app].
    - now apply longest_int_unsigned.
    - now apply longest_int_minus. }
  apply (yylex_emit T tn fuel st (sign ++ a ++ "."%char :: b) rest float_rule); [|rewrite Hst|reflexivity].
  { destruct Hs as [->| ->]; [destruct a; discriminate|discriminate]. }
  assert (Hl : (List.length (sign ++ a) < List.length (sign ++ a ++ "."%char :: b))%nat) by (rewrite !app_length; cbn; lia).
  assert (Hp : (0 < List.length (sign ++ a))%nat) by (destruct Hs as [->| ->]; destruct a; try contradiction; cbn; lia).
  remember (List.length (sign ++ a)) as n. remember (List.length (sign ++ a ++ "."%char :: b)) as m.
  destruct n as [|n]; [lia|]. destruct m as [|m]; [lia|]. destruct Hs as [->| ->]; cbn [app] in *.
  - destruct a as [|d a]; [contradiction|]. cbn [app] in *. pose proof Ha' as Hd. cbn [forallb] in Hd. apply andb_true_iff in Hd as [Hd _].
    rewrite choose_digit by exact Hd. cbn [choose r_re int_rule float_rule hex_rule]. rewrite HI, HF.
    assert (HX : longest hex_re (d :: (a ++ "."%char :: b) ++ rest) = None).
    { apply longest_no. intros w w' E Hm. apply matches_hex in Hm as (hs & -> & _ & _). injection E as -> E.
      destruct a as [|e a]; [discriminate E|]. injection E as -> _. discriminate Ha'. }
    rewrite HX. destruct (Nat.ltb_spec (S n) (S m)); [reflexivity|lia].
  - rewrite choose_minus. cbn [choose r_re int_rule float_rule keyword punct]. rewrite HI, HF.
    destruct a as [|d a]; [contradiction|]. pose proof Ha' as Hd. cbn [forallb] in Hd. apply andb_true_iff in Hd as [Hd _].
    rewrite !longest_lit, longest_char. cbn [list_ascii_of_string prefixb app].
    assert (K : forall c, is_D c = false -> Ascii.eqb c d = false) by (intros c Hc; apply neqb; intros ->; congruence).
    rewrite !K by reflexivity. rewrite !andb_false_r, Ascii.eqb_refl.
    assert (Hm1 : (1 < S m)%nat) by (cbn in Heqm; lia). destruct (Nat.ltb_spec (S m) 1); [lia|]. destruct (Nat.ltb_spec (S n) (S m)); [reflexivity|lia].
Qed.

(** ** Tokens and texts *)
Definition cond_of (tag : bool) : cond := if tag then compound_start_cond else INITIAL.
Lemma ends_hex rest : name_ends rest -> match rest with c :: _ => ~ hex_digit c | [] => True end.
Proof.
  destruct rest as [|c r]; [auto|]. intros H Hx. apply name_ends_iff in H. apply hex_digit_iff in Hx. revert H Hx. clear. all_chars c; discriminate.
Qed.
Lemma entry_not_special x o : entry x = Some o -> ~ special x.
Proof.
  intros H Hs. unfold special in Hs. rewrite <- (list_ascii_of_string_of_list_ascii x) in H.
  repeat (destruct Hs as [Hs|Hs]; [rewrite <- Hs in H; discriminate H|]). destruct Hs.
Qed.
Lemma lex_spelled t u rest g st : spelled tn t u rest -> l_cond st = INITIAL -> (List.length u < g)%nat ->
  exists st', yylex T tn g st (u ++ rest) = Token t st' rest /\ l_cond st' = cond_of (tag_word t) /\ (0 < List.length u)%nat.
Proof.
  intros H Hst Hg. destruct g as [|g]; [lia|]. destruct H.
  - destruct (symbol_choice w t bad rest H H0) as (r & Hc & Ha & Hn & Ht). exists st.
    split; [apply (yylex_emit T tn g st _ rest r t st Hn); [rewrite Hst; exact Hc|apply Ha]|]. rewrite Ht. split; [exact Hst|].
    destruct (list_ascii_of_string w); [contradiction|cbn; lia].
  - rewrite lex_name by eauto using entry_not_special. rewrite H0. eexists. split; [reflexivity|]. split; [|destruct (name_LD x H) as [Hx _]; destruct x; [contradiction|cbn; lia]].
    cbn [tag_word]. destruct (_ || _)%bool; [reflexivity|exact Hst].
  - rewrite lex_name by assumption. rewrite H1, H2. exists st. split; [reflexivity|]. split; [exact Hst|destruct (name_LD x H) as [Hx _]; destruct x; [contradiction|cbn; lia]].
  - rewrite lex_name by assumption. rewrite H1, H2. exists st. split; [reflexivity|]. split; [exact Hst|destruct (name_LD x H) as [Hx _]; destruct x; [contradiction|cbn; lia]].
  - exists st. split; [|split; [exact Hst|destruct H as [H _]; destruct ds; [contradiction|cbn; lia]]]. apply lex_decimal; try assumption.
    intros (_ & d & r & -> & _). apply H1. apply name_char_iff. reflexivity.
  - exists st. split; [|split; [exact Hst|cbn; lia]]. apply (lex_negative T tn g st ds v rest Hst H H0).
  - exists st. split; [|split; [exact Hst|cbn; lia]]. apply (lex_hex T tn g st hs v rest Hst H). now apply ends_hex.
  - exists st. split; [|split; [exact Hst|cbn; lia]]. rewrite lex_quoted; [now rewrite H2|assumption..|].
    eapply Forall_impl; [|exact H1]. intros []; cbn; auto.
  - exists st. split; [now apply lex_float|]. split; [exact Hst|]. rewrite !app_length. cbn. lia.
  - exists (mklex INITIAL o). cbn [app]. rewrite <- app_assoc. split; [|split; [reflexivity|cbn; lia]].
    apply lex_string; [assumption..|]. cbn in Hg. rewrite app_length in Hg. cbn in Hg. lia.
Qed.

Lemma lex_brace g st s : l_cond st = compound_start_cond -> yylex T tn (S g) st ("{"%char :: s) = Token (PUNCT "{") (mklex INITIAL (l_buf st)) s.
Proof.
  intros Hst. set (r := mkrule [compound_start_cond] (lit "{") (fun _ st => Emit (PUNCT "{") (begin INITIAL st))).
  apply (yylex_emit T tn g st ["{"%char] s r); [discriminate| |reflexivity]. rewrite Hst. cbn [app]. rewrite choose_alive.
  replace (filter _ _) with [r] by (destruct T; reflexivity). cbn [choose r_re r app]. rewrite longest_lit. reflexivity.
Qed.

Lemma scan_writes tag l s : writes tn tag l s -> forall g f st, l_cond st = cond_of tag -> (List.length s < g)%nat -> (List.length s <= f)%nat ->
  match yylex T tn g st s with
  | Token t st' rest => match tokens T tn f st' rest with Some l => Some (t :: l) | None => None end
  | EndOfInput _ => Some []
  | Error | LexFuel => None
  end = Some l.
Proof.
  assert (Next : forall f st s l, (forall g f, (List.length s < g)%nat -> (List.length s <= f)%nat ->
    match yylex T tn g st s with
    | Token t st' rest => match tokens T tn f st' rest with Some l => Some (t :: l) | None => None end
    | EndOfInput _ => Some []
    | Error | LexFuel => None
    end = Some l) -> (List.length s < f)%nat -> tokens T tn f st s = Some l).
  { intros f st s0 l0 H Hf. destruct f as [|f]; [lia|]. cbn [tokens]. apply H; lia. }
  induction 1; intros g f st Hst Hg Hf.
  - destruct g; [cbn in Hg; lia|reflexivity].
  - destruct g as [|g]; [lia|]. cbn [List.length] in Hg, Hf. rewrite lex_white; [apply IHwrites; [exact Hst|lia|lia]|assumption|rewrite Hst; destruct tag; discriminate].
  - destruct g as [|g]; [lia|]. rewrite app_length in Hg, Hf. destruct (name_LD x H) as [Hx _]. destruct x as [|c x]; [contradiction|]. cbn [List.length] in Hg, Hf.
    rewrite lex_name by eauto using entry_not_special. rewrite H0. apply IHwrites; [exact Hst|lia|lia].
  - rewrite app_length in Hg, Hf. destruct (lex_spelled t u s g st H Hst ltac:(lia)) as (st' & -> & Hst' & Hu).
    rewrite (Next f st' s l); [reflexivity| |lia]. intros g' f' Hg' Hf'. apply IHwrites; assumption.
  - destruct g as [|g]; [lia|]. rewrite app_length in Hg, Hf. destruct (name_LD x H) as [Hx _]. rewrite lex_tag by assumption.
    rewrite (Next f _ s l); [reflexivity| |destruct x; [contradiction|cbn [List.length] in Hf; lia]]. intros g' f' Hg' Hf'. apply IHwrites; [reflexivity|assumption..].
  - destruct g as [|g]; [lia|]. rewrite lex_brace by exact Hst. cbn [List.length] in Hf.
    rewrite (Next f _ s l); [reflexivity| |lia]. intros g' f' Hg' Hf'. apply IHwrites; [reflexivity|assumption..].
Qed.
Lemma scan_text l s fuel : writes tn false l s -> (List.length s < fuel)%nat -> tokens T tn fuel lex_start s = Some l.
Proof. intros H Hf. destruct fuel as [|f]; [lia|]. cbn [tokens]. apply (scan_writes false l s H); [reflexivity|lia|lia]. Qed.

(** ** Tokens with blanks between them *)
Lemma not_next_blank bad rest : not_next bad [" "%char] -> not_next bad (" "%char :: rest).
Proof. exact (fun H => H). Qed.
Lemma spelled_blank t u rest : spelled tn t u [" "%char] -> spelled tn t u (" "%char :: rest).
Proof.
  assert (N : number_ends [" "%char] -> number_ends (" "%char :: rest)).
  { cbn. intros [H _]. split; [exact H|discriminate]. }
  assert (N' : name_ends [" "%char] -> name_ends (" "%char :: rest)) by exact (fun H => H).
  intros H. inversion H; subst;
    [eapply sp_symbol|eapply sp_keyword|eapply sp_name|eapply sp_type|eapply sp_decimal|eapply sp_negative|eapply sp_hex|eapply sp_char|eapply sp_float|eapply sp_string]; eauto.
Qed.
Lemma writes_blank l us : Forall2 (fun t u => spelled tn t u [" "%char]) l us -> Forall (fun t => tag_word t = false) l ->
  writes tn false l (flat_map (fun u => u ++ [" "%char]) us).
Proof.
  induction 1 as [|t u l us H _ IH]; intros F; [constructor|]. inversion F; subst. cbn [flat_map]. rewrite <- app_assoc. cbn [app].
  constructor; [apply spelled_blank, H|]. rewrite H2. constructor; [cbn; auto|]. apply IH. assumption.
Qed.

(** ** Attributes *)
Lemma choose_first r rs s n : longest (r_re r) s = Some (S n) -> (forall r' m, In r' rs -> longest (r_re r') s = Some m -> (m <= S n)%nat) ->
  choose (r :: rs) s = Some (r, S n).
Proof.
  intros Hr H. cbn [choose]. rewrite Hr. destruct (choose rs s) as [[r' m]|] eqn:Hc; [|reflexivity].
  assert (Hm : (m <= S n)%nat).
  { clear Hr. revert H Hc. induction rs as [|a rs IH]; intros H Hc; [discriminate|]. cbn [choose] in Hc.
    destruct (longest (r_re a) s) as [[|k]|] eqn:Ha; [apply IH; [intros; apply (H r'0); [right; assumption|assumption]|exact Hc]| |apply IH; [intros; apply (H r'0); [right; assumption|assumption]|exact Hc]].
    assert (Hk := H a (S k) (or_introl eq_refl) Ha).
    destruct (choose rs s) as [[r2 m2]|].
    - destruct (S k <? m2)%nat; injection Hc as <- <-; [|exact Hk]. apply IH; [intros; apply (H r'); [right; assumption|assumption]|reflexivity].
    - injection Hc as <- <-. exact Hk. }
  assert (E : (S n <? m)%nat = false) by (apply Nat.ltb_ge; lia). rewrite E. reflexivity.
Qed.
Lemma alive_attribute s : choose init ("_"%char :: s) =
  choose [ignore attribute_re; ignore (lit "_Nullable"); ignore (lit "_Nonnull"); ignore restrict_re; ignore asm_re;
    ignore (lit "__extension__"); ignore inline_re; keyword "_Bool" "BOOL";
    mkrule [INITIAL] ident_re (fun text st => Emit (if tn text then TYPE_NAME text else IDENTIFIER text) st)] ("_"%char :: s).
Proof. first_char. Qed.
Lemma no_asm s : longest asm_re (txt "__attribute__" ++ s) = None.
Proof. reflexivity. Qed.
Lemma no_restrict s : longest restrict_re (txt "__attribute__" ++ s) = None.
Proof. reflexivity. Qed.
Lemma no_inline s : longest inline_re (txt "__attribute__" ++ s) = None.
Proof. reflexivity. Qed.
Lemma no_words k s : In k ["_Nullable"; "_Nonnull"; "__extension__"; "_Bool"] -> longest (lit k) (txt "__attribute__" ++ s) = None.
Proof. intros [<-|[<-|[<-|[<-|[]]]]]; reflexivity. Qed.

Definition attribute (blanks mid : list ascii) : list ascii := txt "__attribute__" ++ blanks ++ txt "((" ++ mid ++ txt "))".
Lemma longest_attribute blanks mid rest : Forall (fun c => c = " "%char \/ c = tab) blanks -> ~ In nl mid -> last_close rest ->
  longest attribute_re (attribute blanks mid ++ rest) = Some (List.length (attribute blanks mid)).
Proof.
  intros Hb Hm Hr. apply longest_app.
  - unfold attribute, attribute_re. apply matches_cat. exists (txt "__attribute__"), (blanks ++ txt "((" ++ mid ++ txt "))").
    split; [reflexivity|]. split; [apply matches_lit; reflexivity|].
    apply matches_cat. exists blanks, (txt "((" ++ mid ++ txt "))"). split; [reflexivity|].
    split; [apply matches_star_cls, forallb_forall; intros c Hc; rewrite Forall_forall in Hb; destruct (Hb c Hc) as [->| ->]; reflexivity|].
    apply matches_cat. exists (txt "(("), (mid ++ txt "))"). split; [reflexivity|]. split; [apply matches_lit; reflexivity|].
    apply matches_cat. exists mid, (txt "))"). split; [reflexivity|]. split; [|apply matches_lit; reflexivity].
    apply matches_star_cls, forallb_forall. intros c Hc. unfold is_any. destruct (Ascii.eqb nl c) eqn:E; [|reflexivity].
    apply Ascii.eqb_eq in E as <-. contradiction.
  - intros w w' Hw -> H. unfold attribute_re in H. apply matches_cat in H as (a & b & H0 & H1 & H2). apply matches_lit in H1 as ->.
    unfold attribute in H0. rewrite <- !app_assoc in H0. apply app_inv_head in H0. subst b.
    apply matches_cat in H2 as (a & b & H0 & H1 & H2). apply matches_star_cls in H1.
    apply matches_cat in H2 as (d & e & -> & H2 & H3). apply matches_lit in H2 as ->.
    assert (Ha : a = blanks).
    { apply (span_unique is_blank a blanks (txt "((" ++ e) (txt "((" ++ mid ++ txt "))" ++ w)); [exact H1| |reflexivity|reflexivity|symmetry; exact H0].
      apply forallb_forall. intros c Hc. rewrite Forall_forall in Hb. destruct (Hb c Hc) as [->| ->]; reflexivity. }
    subst a. apply app_inv_head in H0. apply app_inv_head in H0. subst e.
    apply matches_cat in H3 as (a & b & H0 & H1' & H3). apply matches_star_cls in H1'. apply matches_lit in H3 as ->.
    assert (Hn : ~ In nl a).
    { intros I. rewrite forallb_forall in H1'. specialize (H1' _ I). discriminate H1'. }
    assert (Hlen : exists v, txt "))" ++ w = v ++ txt "))" /\ a = mid ++ v).
    { assert (Hl := f_equal (@List.length ascii) H0). rewrite !app_length in Hl. cbn [List.length txt] in Hl.
      exists (skipn (List.length mid) a). assert (Ha : firstn (List.length mid) a = mid).
      { assert (Hf := f_equal (firstn (List.length mid)) H0). rewrite firstn_app, firstn_all, Nat.sub_diag in Hf. cbn [firstn] in Hf. rewrite app_nil_r in Hf.
        rewrite firstn_app in Hf. replace (List.length mid - List.length a)%nat with O in Hf by lia. cbn [firstn] in Hf. rewrite app_nil_r in Hf. symmetry. exact Hf. }
      rewrite <- (firstn_skipn (List.length mid) a) in H0 at 1. rewrite Ha, <- app_assoc in H0. apply app_inv_head in H0. split; [exact H0|].
      rewrite <- Ha at 1. symmetry. apply firstn_skipn. }
    destruct Hlen as (v & Hv & ->). apply (Hr w w' v eq_refl Hw); [|exact Hv].
    intros I. apply Hn. apply in_or_app. right.
    assert (I' : In nl (v ++ txt "))")) by (rewrite <- Hv; apply in_or_app; right; exact I).
    apply in_app_or in I' as [I'|[I'|[I'|[]]]]; [exact I'|discriminate I'|discriminate I'].
Qed.
Lemma lex_attribute fuel st blanks mid rest : l_cond st = INITIAL -> Forall (fun c => c = " "%char \/ c = tab) blanks -> ~ In nl mid -> last_close rest ->
  yylex T tn (S fuel) st (attribute blanks mid ++ rest) = yylex T tn fuel st rest.
Proof.
  intros Hst Hb Hm Hr. assert (L := longest_attribute blanks mid rest Hb Hm Hr).
  apply (yylex_skip T tn fuel st _ rest (ignore attribute_re) st); [discriminate| |reflexivity]. rewrite Hst.
  change (attribute blanks mid ++ rest) with ("_"%char :: tl (attribute blanks mid) ++ rest). rewrite alive_attribute.
  change ("_"%char :: tl (attribute blanks mid) ++ rest) with (attribute blanks mid ++ rest).
  assert (Hn : exists n, List.length (attribute blanks mid) = S n /\ (12 <= n)%nat).
  { unfold attribute. rewrite app_length. exists (12 + List.length (blanks ++ txt "((" ++ mid ++ txt "))"))%nat. split; [reflexivity|lia]. }
  destruct Hn as (n & Hn & H12). rewrite Hn in *. apply choose_first; [exact L|].
  intros r' m I Hm'. unfold attribute in Hm'. rewrite <- app_assoc in Hm'.
  destruct I as [<-|[<-|[<-|[<-|[<-|[<-|[<-|[<-|[]]]]]]]]]; cbn [r_re ignore keyword] in Hm'.
  - rewrite no_words in Hm' by (cbn; auto). discriminate.
  - rewrite no_words in Hm' by (cbn; auto). discriminate.
  - rewrite no_restrict in Hm'. discriminate.
  - rewrite no_asm in Hm'. discriminate.
  - rewrite no_words in Hm' by (cbn; auto). discriminate.
  - rewrite no_inline in Hm'. discriminate.
  - rewrite no_words in Hm' by (cbn; auto). discriminate.
  - assert (S0 := longest_spec (txt "__attribute__" ++ (blanks ++ txt "((" ++ mid ++ txt "))") ++ rest) ident_re).
    rewrite Hm' in S0. destruct S0 as (S1 & S2 & _). destruct (Nat.le_gt_cases m 13) as [|G]; [lia|exfalso].
    apply matches_ident in S2 as (c & v & S2 & Sc & Sv).
    assert (Hd : exists d tl0, (blanks ++ txt "((" ++ mid ++ txt "))") ++ rest = d :: tl0 /\ is_LD d = false).
    { destruct blanks as [|d bl]; [do 2 eexists; split; [reflexivity|reflexivity]|]. cbn [app]. do 2 eexists. split; [reflexivity|].
      inversion Hb as [|? ? [->| ->]]; reflexivity. }
    destruct Hd as (d & tl0 & Hd & Hdf). rewrite Hd in S2.
    assert (F : forallb is_LD (firstn m (txt "__attribute__" ++ d :: tl0)) = true).
    { rewrite S2. cbn [forallb]. unfold is_LD at 1. rewrite Sc. exact Sv. }
    rewrite firstn_app, forallb_app, andb_true_iff in F. destruct F as [_ F]. cbn [List.length txt] in F.
    destruct (m - 13)%nat as [|k] eqn:K; [lia|]. cbn [firstn forallb] in F. rewrite Hdf in F. discriminate F.
Qed.
End Scan.
