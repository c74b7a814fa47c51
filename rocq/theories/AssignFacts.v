(** Lemmas about assigning to pointers, for C72. *)
From Coq Require Import ZArith List String Ascii Bool Lia.
From Verif Require Import CInt CIntFacts Tree State Eval StepsFacts SpecRun StuckFacts RunFacts RunRules
  SpecExpr ExprFacts SpecControl SpecStmt ControlFacts CallFacts SpecNames NameFacts SpecTypes SpecVars VarFacts SpecPtr PtrFacts SpecCalls SpecPrint SpecAssign
  SpecLexer SpecScan Lexer Grammar Typename Repl Session SpecSyntax SpecSession SessionFacts SessionFacts2 PrintFacts.
Import ListNotations.
Local Open Scope string_scope.
Local Open Scope Z_scope.
Local Open Scope list_scope.

Section Assign.
Variable E : env.

Lemma assign_ptr_int s l lhs rhs t a arr n s1 v s2 : plain s l lhs ->
  runs E s lhs (Ok (T_LIVE_VAR (D_T_PTR t) a arr n) s1) ->
  runs E s1 rhs (Ok (T_INTEGER v) s2) -> storage E s2 a 8 ->
  exists s3, runs E s (T_ASSIGN l lhs rhs) (Ok (T_INTEGER v) s3) /\ only_writes E s2 a 8 s3 /\
    unsigned_at (mem s3) a 8 = Z.abs v mod 2 ^ 64.
Proof.
  intros Hp H1 H2 Hs. exists (set_mem (fun m => store_bytes m a (le_bytes 8 (mpz_get_ui v))) s2).
  split; [|split; [apply only_writes_store; reflexivity|]].
  - apply lim_runs; [discriminate|]. eapply lim_assign; eauto. apply lim_const. intros _.
    unfold assign_ptr, bind, ret. rewrite (store_storage E _ _ _ 8) by auto. reflexivity.
  - cbn [mem set_mem]. rewrite unsigned_store. unfold mpz_get_ui. apply Z.mod_mod. lia.
Qed.

Lemma unsigned_small m n : forall a, 0 <= unsigned_at m a n < 256 ^ Z.of_nat n.
Proof.
  induction n; intros a; [cbn; lia|]. specialize (IHn (a + 1)). cbn [unsigned_at].
  pose proof (Z.mod_pos_bound (m a) 256 ltac:(lia)). rewrite Nat2Z.inj_succ, Z.pow_succ_r by lia. lia.
Qed.

Lemma assign_ptr_var s l lhs rhs t a arr n s1 u b arr' n' s2 : plain s l lhs ->
  runs E s lhs (Ok (T_LIVE_VAR (D_T_PTR t) a arr n) s1) ->
  runs E s1 rhs (Ok (T_LIVE_VAR u b arr' n') s2) -> storage E s2 a 8 -> storage E s2 b 8 ->
  exists s3, runs E s (T_ASSIGN l lhs rhs) (Ok (T_LIVE_VAR u b arr' n') s3) /\ only_writes E s2 a 8 s3 /\
    unsigned_at (mem s3) a 8 = unsigned_at (mem s2) b 8.
Proof.
  intros Hp H1 H2 Hs Hb. exists (set_mem (fun m => store_bytes m a (le_bytes 8 (le_load (mem s2) b 8))) s2).
  split; [|split; [apply only_writes_store; reflexivity|]].
  - apply lim_runs; [discriminate|]. eapply lim_assign; eauto. apply lim_const. intros _.
    unfold assign_ptr, bind. rewrite load_valid by (apply (storage_valid E), Hb). cbn [ret]. change (Z.to_nat 8) with 8%nat.
    rewrite (store_storage E _ _ _ 8) by auto. reflexivity.
  - cbn [mem set_mem]. rewrite unsigned_store, <- unsigned_at_load. apply Z.mod_small.
    pose proof (unsigned_small (mem s2) 8 b). change (256 ^ Z.of_nat 8) with (2 ^ 64) in H. lia.
Qed.

(** ** Texts *)

Lemma string_bytes_len x : List.length (string_bytes x) = S (String.length x).
Proof. induction x; cbn; auto. Qed.

Lemma letters_len x : List.length (letters_of x) = String.length x.
Proof. induction x; cbn; auto. Qed.

Lemma store_nth m a l i v : nth_error l i = Some v -> store_bytes m a l (a + Z.of_nat i) = v.
Proof.
  intros H. assert (L : (i < List.length l)%nat) by (apply nth_error_Some; congruence). unfold store_bytes.
  destruct (Z.leb_spec a (a + Z.of_nat i)); [|lia]. destruct (Z.ltb_spec (a + Z.of_nat i) (a + Z.of_nat (List.length l))); [|lia].
  cbn [andb]. replace (Z.to_nat (a + Z.of_nat i - a)) with i by lia. apply nth_error_nth, H.
Qed.

Lemma string_bytes_nth x : forall i c, nth_error (letters_of x) i = Some c -> nth_error (string_bytes x) i = Some (Z.of_N (N_of_ascii c)).
Proof.
  induction x as [|d x IH]; intros i c H; [destruct i; discriminate|]. destruct i; cbn in *; [congruence|]. apply IH, H.
Qed.
Lemma string_bytes_end x : nth_error (string_bytes x) (String.length x) = Some 0.
Proof. induction x; cbn; auto. Qed.

Lemma ascii_byte c : 0 <= Z.of_N (N_of_ascii c) < 256.
Proof. destruct c as [[] [] [] [] [] [] [] []]; vm_compute; split; congruence. Qed.

Lemma text_stored s q x m : mem s = store_bytes m q (string_bytes x) ->
  storage E s q (Z.of_nat (String.length x) + 1) -> ~ In "000"%char (letters_of x) -> text_at E s q (letters_of x).
Proof.
  intros Hm Hs Hn. unfold text_at. rewrite letters_len. split; [exact Hs|]. split; [exact Hn|]. split.
  - intros i c Hc. rewrite Hm, (store_nth _ _ _ _ _ (string_bytes_nth _ _ _ Hc)). apply Z.mod_small, ascii_byte.
  - rewrite Hm, (store_nth _ _ _ _ _ (string_bytes_end x)). reflexivity.
Qed.

Lemma track_keeps_new s a n s1 s2 u s3 : malloc E n s = Ok a s1 -> only_new E s [] s2 -> new_object E s a n s2 -> track_alloc E a s2 = Ok u s3 ->
  only_new E s [] s3 /\ new_object E s a n s3 /\ mem s3 = mem s2 /\
  exists c cs, stack s2 = c :: cs /\ stack s3 = scope_plus c [] [a] :: cs.
Proof.
  intros Hm N O Ht.
  assert (Hne : forall b, In b (blocks s) -> b_base b <> a).
  { intros b Hb. apply malloc_inv in Hm as ((M1 & M2 & M3) & -> & ->). eapply forallb_forall in M3; [|exact Hb].
    unfold disjoint_blocks in M3. apply orb_true_iff in M3. rewrite !Z.leb_le in M3. lia. }
  destruct (track_kept E a s2 u s3 (only_new_nonempty _ _ _ _ N) Ht) as ((c2 & cs2 & T1 & T2) & K & R & M & B).
  split; [|split; [exact (new_object_kept _ _ _ _ _ _ O K)|split; [exact M|eauto]]]. pose proof (fun b => used_new E s [] s2 b N) as U.
  destruct N as ((c & cs & al & S1 & S2 & S3) & K0 & R0). split; [|split; [eapply kept_trans; eauto|eapply same_rest_trans; eauto]].
  exists c, cs, (al ++ [a]). split; [exact S1|]. rewrite S2 in T1. injection T1 as <- <-. split.
  - rewrite T2. unfold scope_plus. cbn. rewrite app_nil_r, <- app_assoc. rewrite app_nil_r. reflexivity.
  - intros b Hb. split; [apply B; [apply U, Hb|apply Hne, Hb]|]. rewrite in_app_iff. cbn [In]. intros [H|[H|[]]].
    + exact (proj2 (S3 b Hb) H).
    + exact (Hne b (proj1 Hb) (eq_sym H)).
Qed.

(** What [assign_ptr] does with a string. *)
Lemma assign_ptr_text s a x : stack s <> [] -> storage E s a 8 -> ~ In "000"%char (letters_of x) ->
  assign_ptr E a (T_STRING x) s = NoMemory (Z.of_nat (String.length x) + 1) s \/
  exists q s', assign_ptr E a (T_STRING x) s = Ok tt s' /\ text_assigned E s a x q s' /\ (forall b m, storage E s b m -> storage E s' b m).
Proof.
  intros Hs Ha Hx. unfold assign_ptr.
  assert (Hl : Z.of_nat (List.length (string_bytes x)) = Z.of_nat (String.length x) + 1) by (rewrite string_bytes_len; lia).
  rewrite Hl. destruct (malloc_cases E (Z.of_nat (String.length x) + 1) s) as [(q & s1 & Hm & _ & _ & Hb)|Hm].
  2: { left. unfold bind. rewrite Hm. reflexivity. }
  right. destruct (malloc_new E _ s q s1 Hs Hm) as (N1 & O1 & M1 & _).
  destruct (write_new E s q _ s1 (string_bytes x) N1 O1) as (W & N2 & O2); [rewrite Hl; lia|].
  set (s2 := set_mem (fun m => store_bytes m q (string_bytes x)) s1) in *.
  pose proof (track_ok E q s2 (only_new_nonempty _ _ _ _ N2)) as Ht.
  match type of Ht with _ = Ok tt ?s => set (s3 := s) in * end.
  destruct (track_keeps_new _ _ _ _ _ _ _ Hm N2 O2 Ht) as (N3 & O3 & M3 & (c & cs & T1 & T2)).
  assert (Ha3 : storage E s3 a 8) by (apply N3, Ha).
  exists q, (set_mem (fun m => store_bytes m a (le_bytes 8 q)) s3).
  assert (Hst : stack s2 = stack s) by (subst s2 s1; reflexivity).
  destruct O3 as (Q1 & Q2 & Q3 & Q4).
  assert (Hd : a + 8 <= q \/ q + (Z.of_nat (String.length x) + 1) <= a) by (apply (Q4 a 8 ltac:(lia) Ha)).
  split; [|split].
  - rewrite (bind_eq _ _ _ _ _ q s3).
    + rewrite (store_storage E _ _ _ 8) by auto. reflexivity.
    + rewrite (bind_eq _ _ _ _ _ _ _ Hm), (bind_eq _ _ _ _ _ _ _ W), (bind_eq _ _ _ _ _ _ _ Ht). reflexivity.
  - split; [exists c, cs; rewrite <- Hst; auto|]. split; [split; [exact Q1|split; [exact Q2|split; [exact Q3|exact Q4]]]|].
    split; [cbn [mem set_mem]; rewrite unsigned_store; apply Z.mod_small; lia|].
    split; [|split; [|destruct N3 as (_ & _ & R); exact R]].
    + assert (T3 : text_at E s3 q (letters_of x)) by (apply (text_stored _ _ _ (mem s1)); auto).
      destruct T3 as (_ & _ & T3 & T4). rewrite letters_len in T4. unfold text_at. rewrite letters_len.
      split; [exact Q1|]. split; [exact Hx|]. cbn [mem set_mem]. split.
      * intros i ch Hi. rewrite store_bytes_out; [apply T3, Hi|]. cbn [List.length le_bytes].
        assert (i < List.length (letters_of x))%nat by (apply nth_error_Some; congruence). rewrite letters_len in H. lia.
      * rewrite store_bytes_out; [exact T4|]. cbn [List.length le_bytes]. lia.
    + intros b Hb' Hout. cbn [mem set_mem]. rewrite store_bytes_out by exact Hout. destruct N3 as (_ & [_ K] & _). apply K, Hb'.
  - intros b m H. exact (proj1 (proj1 (proj2 N3)) b m H).
Qed.

Lemma assign_text s l lhs rhs t a arr n s1 x s2 : reachable E s -> plain s l lhs ->
  runs E s lhs (Ok (T_LIVE_VAR (D_T_PTR t) a arr n) s1) ->
  runs E s1 rhs (Ok (T_STRING x) s2) -> storage E s2 a 8 -> ~ In "000"%char (letters_of x) ->
  out_of_memory E s (T_ASSIGN l lhs rhs) (Z.of_nat (String.length x) + 1) \/
  exists q s3, runs E s (T_ASSIGN l lhs rhs) (Ok (T_STRING x) s3) /\ text_assigned E s2 a x q s3.
Proof.
  intros Hr Hp H1 H2 Hs Hx.
  assert (Hne : stack s2 <> []) by (apply (reachable_nonempty E); eapply reachable_runs; [|exact H2|reflexivity]; eapply reachable_runs; [exact Hr|exact H1|reflexivity]).
  destruct (assign_ptr_text s2 a x Hne Hs Hx) as [H|(q & s3 & H & T & _)].
  - left. apply (oom E _ _ _ s2). apply lim_runs; [discriminate|]. eapply lim_assign; eauto. apply lim_const. intros _. unfold bind. rewrite H. reflexivity.
  - right. exists q, s3. split; [|exact T]. apply lim_runs; [discriminate|]. eapply lim_assign; eauto. apply lim_const. intros _.
    unfold bind. rewrite H. reflexivity.
Qed.

(** The value of an integer expression. *)
Lemma assign_ptr_expr rho e s l x t a arr n : plain s l (T_IDENTIFIER x) -> means s x (T_LIVE_VAR (D_T_PTR t) a arr n) ->
  storage E s a 8 -> computed e -> (forall y, mentions e y -> number E s (lookup s y) (rho y)) ->
  match denote rho e with
  | Some v => exists s', runs E s (T_ASSIGN l (T_IDENTIFIER x) (syntax e)) (Ok (T_INTEGER v) s') /\
      only_writes E s a 8 s' /\ unsigned_at (mem s') a 8 = Z.abs v mod 2 ^ 64
  | None => exists s', runs E s (T_ASSIGN l (T_IDENTIFIER x) (syntax e)) (Abort s') /\ only_gc E s s'
  end.
Proof.
  intros Hp Hm Hs He Hg. destruct (computed_value E rho e s He Hg) as (s1 & G & H).
  assert (Hx : runs E s (T_IDENTIFIER x) (Ok (T_LIVE_VAR (D_T_PTR t) a arr n) s)) by (apply innermost; auto).
  destruct (denote rho e) as [v|].
  - destruct (assign_ptr_int s l _ _ t a arr n s v s1 Hp Hx H) as (s' & R & W & V); [apply G, Hs|].
    exists s'. split; [exact R|]. split; [eapply only_writes_gc_l; eauto|exact V].
  - exists s1. split; [|exact G]. apply lim_runs; [discriminate|]. cbn [evaluate_1]. unfold eval_assign.
    eapply lim_bind; [apply lim_const; reflexivity|]. cbn beta. unfold assign_lhs.
    assert (Hq : match zfind l (ov_asn s) with Some v => v | None => T_IDENTIFIER x end = T_IDENTIFIER x) by (destruct Hp as [-> | ->]; reflexivity).
    rewrite Hq. eapply lim_bind; [apply lim_ev; exact Hx|].
    apply (lim_bind_fail E _ _ _ _ _ (Abort s1) (lim_ev E _ _ _ H)). reflexivity.
Qed.

(** An address. *)
Lemma assign_address s l x e t a arr n u b m s1 : reachable E s -> plain s l (T_IDENTIFIER x) -> means s x (T_LIVE_VAR (D_T_PTR t) a arr n) ->
  storage E s a 8 -> runs E s e (Ok (T_LIVE_VAR u b false m) s1) -> only_gc E s s1 -> 0 <= b < 2 ^ 64 ->
  out_of_memory E s (T_ASSIGN l (T_IDENTIFIER x) (T_ADDR e)) 16 \/
  exists q s', runs E s (T_ASSIGN l (T_IDENTIFIER x) (T_ADDR e)) (Ok (T_LIVE_VAR (D_T_PTR u) q false 0) s') /\
    unsigned_at (mem s') a 8 = b /\ (forall c, storage E s c 1 -> c < a \/ a + 8 <= c -> mem s' c = mem s c) /\
    (forall c k, storage E s c k -> storage E s' c k) /\ (forall y, lookup s' y = lookup s y).
Proof.
  intros Hr Hp Hm Hs He G Hb.
  assert (Hx : runs E s (T_IDENTIFIER x) (Ok (T_LIVE_VAR (D_T_PTR t) a arr n) s)) by (apply innermost; auto).
  assert (Hne : stack s <> []) by exact (reachable_nonempty E s Hr).
  assert (Hne1 : stack s1 <> []) by (apply (reachable_nonempty E); eapply reachable_runs; [exact Hr|exact He|reflexivity]).
  destruct (address E s e u b m s1 He Hne1) as [Ho|(q & s2 & H2 & N & O & V)].
  - left. destruct Ho as (s' & Ho & _). apply (oom E _ _ _ s'). apply lim_runs; [discriminate|]. cbn [evaluate_1]. unfold eval_assign.
    eapply lim_bind; [apply lim_const; reflexivity|]. cbn beta. unfold assign_lhs.
    assert (Hq : match zfind l (ov_asn s) with Some v => v | None => T_IDENTIFIER x end = T_IDENTIFIER x) by (destruct Hp as [-> | ->]; reflexivity).
    rewrite Hq. eapply lim_bind; [apply lim_ev; exact Hx|].
    apply (lim_bind_fail E _ _ _ _ _ (NoMemory 16 s') (lim_ev E _ _ _ Ho)). reflexivity.
  - right. assert (N0 := only_new_trans0 E _ _ _ _ (only_new_gc E _ _ Hne G) N).
    assert (Hs2 : storage E s2 a 8) by (apply N0, Hs).
    assert (Hq : storage E s2 q 8) by (destruct O as (O & _); eapply storage_sub; [exact O|lia|lia]).
    destruct (assign_ptr_var s l _ _ t a arr n s _ q _ _ s2 Hp Hx H2 Hs2 Hq) as (s' & R & W & U).
    exists q, s'. split; [exact R|]. split; [rewrite U, V; apply Z.mod_small; lia|].
    split; [|split].
    + intros c Hc Hout. destruct W as [W _]. rewrite W by exact Hout. destruct N0 as (_ & [_ K] & _). apply K, Hc.
    + intros c k Hc. eapply only_writes_storage; [exact W|]. apply N0, Hc.
    + intros y. destruct W as (_ & W & _). rewrite <- (only_new_lookup E s [] s2 y N0) by (intros []).
      apply (lookup_gc _ _ y) in W. rewrite W. reflexivity.
Qed.

(** Other values. *)
Lemma assign_ptr_other s l lhs rhs t a arr n s1 v s2 : plain s l lhs ->
  runs E s lhs (Ok (T_LIVE_VAR (D_T_PTR t) a arr n) s1) -> runs E s1 rhs (Ok v s2) ->
  match v with NULL | T_STRING _ | T_LIVE_VAR _ _ _ _ | T_INTEGER _ => False | _ => True end ->
  runs E s (T_ASSIGN l lhs rhs) (Die s2).
Proof.
  intros Hp H1 H2 Hv. apply lim_runs; [discriminate|]. eapply lim_assign; eauto. apply lim_const. intros _.
  destruct v; try contradiction; reflexivity.
Qed.

Lemma text_lookup s a x q s' y : text_assigned E s a x q s' -> lookup s' y = lookup s y.
Proof.
  intros ((c & cs & H1 & H2) & _ & _ & _ & _ & R). unfold lookup, scope_ctxs. destruct R as (R & _). rewrite R, H1, H2.
  cbn [app map]. rewrite !resolve_maps_cons. cbn [scope_plus c_idmap]. rewrite app_nil_r. reflexivity.
Qed.
Lemma text_storage s a x q s' b m : 0 < m -> text_assigned E s a x q s' -> storage E s b m -> storage E s' b m.
Proof. intros Hm (_ & (_ & _ & _ & H) & _) Hb. apply (H b m Hm Hb). Qed.

(** What is shown of the pointer then. *)
Lemma text_shown s a x q s' arr n d : storage E s a 8 -> text_assigned E s a x q s' ->
  exists out, address_text q out /\
    shown E s' d (T_LIVE_VAR (D_T_PTR (D_T D_T_CHAR)) a arr n) (out ++ letters_of " (""" ++ letters_of x ++ letters_of """)").
Proof.
  intros Ha T. pose proof (text_storage _ _ _ _ _ a 8 ltac:(lia) T Ha) as Ha'. destruct T as (_ & (_ & Q & _) & U & T & _).
  exists (print_pointer q). assert (A : address_text q (print_pointer q)) by (apply print_address; lia). split; [exact A|].
  apply shown_text; auto; [lia|rewrite U; exact A|rewrite U; exact T].
Qed.
End Assign.

(** ** String constants have no NUL *)
Lemma octal_no_nul v : ~ In "000"%char (octal_byte v).
Proof.
  unfold octal_byte. set (b := if _ <? _ then _ else _). assert (B : 0 <= b < 256).
  { subst b. destruct (v <? 2 ^ 63); [apply Z.mod_pos_bound|]; lia. }
  destruct (Z.eqb_spec b 0) as [|Nb]; [intros []|]. intros [J|[]]. apply (f_equal nat_of_ascii) in J.
  rewrite nat_ascii_embedding in J by lia. cbn in J. lia.
Qed.
Lemma decodes_no_nul b o : decodes b o -> ~ In "000"%char o.
Proof.
  induction 1; cbn [In]; try (intros [J|J]; [revert J|apply IHdecodes, J]); try discriminate; auto.
  - intros ->. destruct H as (_ & _ & _ & H). apply H. reflexivity.
  - rewrite in_app_iff. intros [J|J]; [exact (octal_no_nul _ J)|exact (IHdecodes J)].
Qed.
Lemma writes_no_nul tn tag l s : writes tn tag l s -> forall y, In (CONST_STRING y) l -> ~ In "000"%char y.
Proof.
  induction 1 as [| | |t u l s Sp W IH| |]; cbn [In]; auto; try (intros y [J|J]; [discriminate J|eauto]).
  intros y [J|J]; [|eauto]. subst t. inversion Sp as [w t bad rest Hin Hn Ht| | | | | | | | |b o rest D]; [|eapply decodes_no_nul; eauto].
  exfalso. revert Hin. cbn. intuition discriminate.
Qed.

(** ** The REPL *)
Section Lines.
Variable E : env.
Variable H : host.

Lemma text_line se x y line t a arr n : reachable E (se_eval se) -> typed H se [IDENTIFIER x; p "="; CONST_STRING y; p ";"] line ->
  means (se_eval se) (string_of_list_ascii x) (T_LIVE_VAR (D_T_PTR t) a arr n) -> storage E (se_eval se) a 8 -> new_nodes_plain (se_eval se) ->
  let s := set_fresh (fun i => i + 2) (se_eval se) in
  (exists s', refuses E (Z.of_nat (List.length y) + 1) s' /\ forall r, repl_round E H se line r <-> r = Ends (NoMemory (Z.of_nat (List.length y) + 1) s')) \/
  exists st q s', l_cond st = INITIAL /\ text_assigned E s a (string_of_list_ascii y) q s' /\
    forall r, repl_round E H se line r <-> r = Continues (letters_of """" ++ y ++ letters_of """" ++ [line_feed]) (mksession st (se_names se) s').
Proof.
  intros Hr Ty M Hs Np s1.
  assert (Hy : ~ In "000"%char y) by (destruct Ty as (_ & W & _); apply (writes_no_nul _ _ _ _ W); cbn; auto). set (s := se_eval se) in *. set (e := Assign Plain (Id x) (Str y)).
  assert (Nt : ~ In typedef_token (line_text (LExp (One e)))) by (cbn; intros [J|[J|[J|[J|[]]]]]; discriminate J).
  assert (Ni : forall s, LExp (One e) <> LInclude s) by discriminate.
  assert (Tr : forall k, line_tree (LExp (One e)) k = (T_EXPR_LIST (CHAIN_HEAD [T_ASSIGN k (ident x) (T_STRING (string_of_list_ascii y))]), k + 1)) by reflexivity.
  assert (F : SpecSyntax.fits e) by (cbn; auto).
  destruct (line_answers E H se (LExp (One e)) line _ _ _ _ Ty F Ni ltac:(discriminate) Nt (Tr _) (Tr _)) as (st & C & A). fold s in A.
  replace (set_fresh (fun _ => fresh s + 1 + 1) s) with (set_fresh (fun i => i + 2) s) in A by (unfold set_fresh; f_equal; lia).
  fold s1 in A.
  assert (Pl : plain s1 (fresh s + 1) (ident x)) by (left; apply (Np (fresh s + 1)); lia).
  assert (Rx : runs E s1 (ident x) (Ok (T_LIVE_VAR (D_T_PTR t) a arr n) s1)) by (apply innermost; split; [exact M|reflexivity]).
  assert (Ry : runs E s1 (T_STRING (string_of_list_ascii y)) (Ok (T_STRING (string_of_list_ascii y)) s1)) by (split; [discriminate|]; exists 1%nat; reflexivity).
  assert (Ne : stack s1 <> []) by exact (reachable_nonempty E s Hr).
  assert (Ll : Z.of_nat (String.length (string_of_list_ascii y)) = Z.of_nat (List.length y)).
  { rewrite <- letters_len. unfold letters_of. rewrite list_ascii_of_string_of_list_ascii. reflexivity. }
  assert (Hy' : ~ In "000"%char (letters_of (string_of_list_ascii y))) by (unfold letters_of; rewrite list_ascii_of_string_of_list_ascii; exact Hy).
  destruct (assign_ptr_text E s1 a (string_of_list_ascii y) Ne Hs Hy') as [R|(q & s' & R & T & _)].
  - left. rewrite Ll in R.
    assert (R' : runs E s1 (T_ASSIGN (fresh s + 1) (ident x) (T_STRING (string_of_list_ascii y))) (NoMemory (Z.of_nat (List.length y) + 1) s1)).
    { apply lim_runs; [discriminate|]. eapply lim_assign; eauto. apply lim_const. intros _. unfold bind. rewrite R. reflexivity. }
    exists s1. split; [destruct (oom E _ _ _ _ R') as (s' & R2 & Rf); pose proof (runs_fun _ _ _ _ _ R' R2) as Q; injection Q as <-; exact Rf|].
    intros r. rewrite A. apply answers_ends; [apply run_single; exact R'|]. intros ? ?; discriminate.
  - right. exists st, q, s'. split; [exact C|]. split; [exact T|]. intros r. rewrite A.
    replace (letters_of """" ++ y ++ letters_of """" ++ [line_feed]) with ((letters_of """" ++ y ++ letters_of """") ++ [newline]) by (rewrite <- !app_assoc; reflexivity).
    apply (answers_value E H (mksession st (se_names se) s1) _ (T_STRING (string_of_list_ascii y))); [|discriminate|].
    + apply run_single. apply lim_runs; [discriminate|]. eapply lim_assign; eauto. apply lim_const. intros _. unfold bind. rewrite R. reflexivity.
    + cbn [pretty_print pp_1]. unfold chars. rewrite list_ascii_of_string_of_list_ascii. reflexivity.
Qed.

Lemma text_session se x y line line2 a arr n : reachable E (se_eval se) -> typed H se [IDENTIFIER x; p "="; CONST_STRING y; p ";"] line -> typed H se [IDENTIFIER x; p ";"] line2 ->
  means (se_eval se) (string_of_list_ascii x) (T_LIVE_VAR (D_T_PTR (D_T D_T_CHAR)) a arr n) -> storage E (se_eval se) a 8 -> new_nodes_plain (se_eval se) ->
  (exists s', refuses E (Z.of_nat (List.length y) + 1) s' /\ forall r, repl_round E H se line r <-> r = Ends (NoMemory (Z.of_nat (List.length y) + 1) s')) \/
  exists st q s' out, l_cond st = INITIAL /\ text_assigned E (set_fresh (fun i => i + 2) (se_eval se)) a (string_of_list_ascii y) q s' /\ address_text q out /\
    forall outs se', repl_rounds E H se [line; line2] outs se' <->
      outs = letters_of """" ++ y ++ letters_of """" ++ [line_feed] ++ out ++ letters_of " (""" ++ y ++ letters_of """)" ++ [line_feed] /\
      se' = mksession st (se_names se) s'.
Proof.
  intros Hr Ty Ty2 M Hs Np. destruct (text_line se x y line _ a arr n Hr Ty M Hs Np) as [L|(st & q & s' & C & T & R)]; [left; exact L|right].
  assert (Ty2' : typed H (mksession st (se_names se) s') [IDENTIFIER x; p ";"] line2).
  { apply (typed_same H se); auto. cbn [se_eval]. destruct T as (_ & _ & _ & _ & _ & (_ & I & _)). exact I. }
  assert (M' : means s' (string_of_list_ascii x) (T_LIVE_VAR (D_T_PTR (D_T D_T_CHAR)) a arr n)).
  { apply means_lookup; [discriminate|]. rewrite (text_lookup _ _ _ _ _ _ _ T). apply means_lookup in M; [exact M|discriminate]. }
  destruct (text_shown E (set_fresh (fun i => i + 2) (se_eval se)) a _ q s' arr n 0%nat Hs T) as (out & D & S).
  destruct (shown_line E H _ x line2 _ _ Ty2' M' S) as (st2 & C2 & R2). cbn [se_eval se_names] in *.
  exists st2, q, s', out. split; [exact C2|]. split; [exact T|]. split; [exact D|].
  intros outs se'. rewrite (rounds_two E H se line line2 _ _ _ _ R R2).
  unfold letters_of at 3 4 5. rewrite list_ascii_of_string_of_list_ascii, <- !app_assoc. reflexivity.
Qed.
End Lines.
