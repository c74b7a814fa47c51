(** Proofs for C75. *)
From Coq Require Import ZArith List String Ascii Bool Lia.
From Verif Require Import CInt Tree SpecResolver State Eval StepsFacts EvalInv Repl Session CScript Main Startup SpecRun SpecScope ScopeFacts
  SpecNames NameFacts SpecTypes SpecExpr SpecVars SpecControl SpecStmt SpecCScript SpecBuiltin SpecStartup RunFacts RunRules CallFacts BreakFacts
  CScriptFacts SessionFacts2 BuiltinFacts VarFacts.
Import ListNotations.
Local Open Scope string_scope.
Local Open Scope Z_scope.
Local Open Scope list_scope.

Lemma dotfile_text opts h : cscript_command opts (dotfile h) = dotfile_command opts h.
Proof. unfold cscript_command, dotfile, dotfile_command. rewrite <- !app_assoc. reflexivity. Qed.

Lemma home_of U h : home_directory U h -> homedir U = Some (Some h).
Proof. unfold homedir. intros [->|[-> ->]]; reflexivity. Qed.

Section Startup.
Variables (E : env) (opts : text) (output : text -> parsed) (readable : text -> bool) (asprintf : text -> option Z) (U : user).
Notation startup := (startup E opts output readable asprintf U).
Notation file := (evaluate_startup_file E opts output readable asprintf U).

Lemma startup_ret s : (forall n, file n s = Ok tt s) -> forall r, startup s r <-> r = Ok tt s.
Proof. intros F r. split; [intros [_ [n <-]]; apply F|]. intros ->. split; [discriminate|]. exists 0%nat. apply F. Qed.

Lemma file_run h p n s : home_directory U h -> asprintf (h ++ chars "/.bic") = Some p -> readable (h ++ chars "/.bic") = true ->
  file n s = forget (evaluate_cscript E n (output (dotfile_command opts h)) false [p] s).
Proof.
  intros Hh Ha Hr. unfold evaluate_startup_file. rewrite (home_of _ _ Hh), dotfile_text.
  replace (dotfile h) with (h ++ chars "/.bic") by reflexivity. rewrite Ha, Hr. unfold bind, ret.
  destruct (evaluate_cscript E n (output (dotfile_command opts h)) false [p] s); reflexivity.
Qed.

Lemma startup_none s : (forall h, ~ home_directory U h) -> u_home U = None /\ (u_passwd U = Some None -> forall r, startup s r <-> r = Ok tt s).
Proof.
  intros N. assert (Hn : u_home U = None).
  { destruct (u_home U) as [h|] eqn:Hh; [|reflexivity]. exfalso. apply (N h). left. exact Hh. }
  split; [exact Hn|]. intros Hp. apply startup_ret. intros n. unfold evaluate_startup_file, homedir. rewrite Hn, Hp. reflexivity.
Qed.

Lemma startup_unreadable h s : home_directory U h -> asprintf (h ++ chars "/.bic") = None \/ readable (h ++ chars "/.bic") = false ->
  forall r, startup s r <-> r = Ok tt s.
Proof.
  intros Hh Ha. apply startup_ret. intros n. unfold evaluate_startup_file. rewrite (home_of _ _ Hh).
  replace (dotfile h) with (h ++ chars "/.bic") by reflexivity. destruct Ha as [->|Hr]; [reflexivity|]. rewrite Hr. destruct (asprintf _); reflexivity.
Qed.

Lemma startup_no_user s : u_home U = None -> u_passwd U = None -> forall r, startup s r <-> r = UB.
Proof.
  intros Hh Hp. assert (F : forall n, file n s = UB) by (intros n; unfold evaluate_startup_file, homedir; rewrite Hh, Hp; reflexivity).
  intros r. split; [intros [_ [n <-]]; apply F|]. intros ->. split; [discriminate|]. exists 0%nat. apply F.
Qed.

Section File.
Variables (h : text) (p : Z).
Hypothesis Hh : home_directory U h.
Hypothesis Ha : asprintf (h ++ chars "/.bic") = Some p.
Hypothesis Hr : readable (h ++ chars "/.bic") = true.

Lemma startup_script s l : output (dotfile_command opts h) = Items l ->
  forall r, startup s r <-> exists r', script E s l [p] r' /\ r = forget r'.
Proof.
  intros Ho r. split.
  - intros [Hf [n Hn]]. rewrite (file_run h p n s Hh Ha Hr), Ho in Hn. exists (evaluate_cscript E n (Items l) false [p] s).
    split; [|auto]. split; [|exists n; reflexivity]. intros Hx. rewrite Hx in Hn. cbn in Hn. congruence.
  - intros (r' & [Hf [n Hn]] & ->). split; [destruct r'; try discriminate; congruence|]. exists n.
    rewrite (file_run h p n s Hh Ha Hr), Ho, Hn. reflexivity.
Qed.

Lemma startup_not_parsed s : output (dotfile_command opts h) = Not_parsed -> forall r, startup s r <-> r = Ok tt s.
Proof. intros Ho. apply startup_ret. intros n. rewrite (file_run h p n s Hh Ha Hr), Ho. reflexivity. Qed.

Lemma startup_syntax s : output (dotfile_command opts h) = Syntax_error -> forall r, startup s r <-> r = Exit 1 s.
Proof.
  intros Ho. assert (F : forall n, file n s = Exit 1 s) by (intros n; rewrite (file_run h p n s Hh Ha Hr), Ho; reflexivity).
  intros r. split; [intros [_ [n <-]]; apply F|]. intros ->. split; [discriminate|]. exists 0%nat. apply F.
Qed.

Lemma startup_only s l r' : output (dotfile_command opts h) = Items l -> (forall r, script E s l [p] r <-> r = r') ->
  forall r, startup s r <-> r = forget r'.
Proof.
  intros Ho Hs r. rewrite (startup_script s l Ho). split; [intros (r0 & H0 & ->); apply Hs in H0; subst; reflexivity|].
  intros ->. exists r'. split; [apply Hs; reflexivity|reflexivity].
Qed.

Lemma grows_entry c c' x v : SpecScope.grows c c' -> entry (c_idmap c) x v -> entry (c_idmap c') x v.
Proof. intros (_ & _ & _ & _ & _ & (m & ->) & _) (m1 & m2 & -> & N). exists m1, (m2 ++ m). rewrite <- app_assoc. auto. Qed.

(** argc and argv are in the innermost scope. *)
Lemma arguments_innermost s argv s1 x v : started E s -> arguments E s argv (Ok tt s1) -> undisturbed s s1 ->
  (forall w, ~ In (x, w) known_names) -> means s1 x v ->
  exists c cs, stack s1 = c :: cs /\ v <> NULL /\ entry (c_idmap c) x v.
Proof.
  intros Hs Hg (Hi & _ & _ & _ & _ & _ & Hb) Hk Hm. destruct (started_facts E s Hs) as (Hre & (c & c' & Hst & Hm0 & _) & _).
  pose proof (arguments_restored E s argv s1 Hre Hg Hb) as R. rewrite Hst in R. unfold restored in R.
  destruct (stack s1) as [|c1 cs1] eqn:Hs1; [contradiction|]. destruct R as [-> G]. exists c1, [c']. split; [reflexivity|].
  destruct Hm as (inner & d & outer & Hv & Hin & Hn & He). split; [exact Hn|]. unfold visible in Hv. rewrite Hs1, Hi in Hv.
  destruct inner as [|c2 inner]; cbn [app] in Hv; injection Hv as Hc Hrest; [subst d; exact He|].
  exfalso. apply (Hk v). apply (started_names E s x v Hs). exists (c :: inner), d, outer.
  split; [|split; [|split; [exact Hn|exact He]]].
  - unfold visible. rewrite Hst. cbn [app]. f_equal. exact Hrest.
  - intros e [<-|H0]; [|apply Hin; right; exact H0]. intros (w & _ & m1 & m2 & H1 & _). rewrite Hm0 in H1. destruct m1; discriminate H1.
Qed.

Lemma startup_items s l : started E s -> 0 <= p < 2 ^ 64 -> output (dotfile_command opts h) = Items l -> top_level l -> ~ has_main l ->
  (exists k s', forall r, startup s r <-> r = NoMemory k s') \/
  exists s1, arguments E s [p] (Ok tt s1) /\ has_arguments E s1 [p] /\
    forall s2, items E l s1 s2 -> (forall r, startup s r <-> r = Ok tt s2) /\
      (breaks s2 = breaks s -> exists a b c cs, stack s2 = c :: cs /\
        entry (c_idmap c) "argc" (T_LIVE_VAR (D_T D_T_INT) a false 0) /\
        entry (c_idmap c) "argv" (T_LIVE_VAR (D_T_PTR (D_T_PTR (D_T D_T_CHAR))) b true 8)).
Proof.
  intros Hs Hp Ho Ht Hm. assert (Hv : argument_vector [p]) by (split; [cbn; lia|repeat constructor; lia]).
  destruct (arguments_made E s [p] Hs Hv) as [(k & s' & Hg & _)|(s1 & Hg & Hre & Hh1 & _ & Hun & _)].
  - left. exists k, s'. apply (startup_only s l (NoMemory k s') Ho). apply (script_no_arguments E s l [p] k s' Ht); [tauto|exact Hg].
  - right. exists s1. split; [exact Hg|]. split; [exact Hh1|]. intros s2 Hi. split.
    + apply (startup_only s l (Ok 0 s2) Ho). intros r. rewrite (script_no_main E s l [p] s1 Ht Hm Hg r). split.
      * intros (o & Hbl & Hend). rewrite (block_fun E _ _ _ _ Hbl (block_items E _ _ _ Hi)) in Hend. inversion Hend. reflexivity.
      * intros ->. exists (Ok tt s2). split; [apply block_items, Hi|constructor].
    + intros Hb. assert (Hb1 : breaks s1 = breaks s) by apply Hun.
      destruct (items_restored E _ _ _ Hi Hre ltac:(lia)) as [R _]. destruct Hh1 as [(a & Hma & _) (b & base & Hmb & _)].
      assert (Ka : forall w, ~ In ("argc", w) known_names) by (intros w [K|[K|[K|[]]]]; discriminate K).
      assert (Kb : forall w, ~ In ("argv", w) known_names) by (intros w [K|[K|[K|[]]]]; discriminate K).
      destruct (arguments_innermost s [p] s1 _ _ Hs Hg Hun Ka Hma) as (c & cs & Hst & _ & Ea).
      destruct (arguments_innermost s [p] s1 _ _ Hs Hg Hun Kb Hmb) as (c0 & cs0 & Hst0 & _ & Eb).
      rewrite Hst in Hst0. injection Hst0 as <- <-. rewrite Hst in R. unfold restored in R.
      destruct (stack s2) as [|c2 cs2]; [contradiction|]. destruct R as [-> G]. exists a, b, c2, cs.
      split; [reflexivity|]. split; eapply grows_entry; eauto.
Qed.
End File.

Lemma startup_steps s s1 : startup s (Ok tt s1) -> steps E s s1.
Proof.
  intros [_ [n F]]. unfold evaluate_startup_file in F. destruct (homedir U) as [[h|]|]; [|injection F as <-; apply steps_refl|discriminate F].
  destruct (asprintf _) as [p|]; [|injection F as <-; apply steps_refl].
  destruct (readable _); [|injection F as <-; apply steps_refl].
  apply RunFacts.bind_ok in F. destruct F as (z & s' & F & F'). injection F' as <-.
  unfold evaluate_cscript in F. destruct (output _) as [| |l]; [discriminate F|injection F as _ <-; apply steps_refl|].
  apply RunFacts.bind_ok in F. destruct F as (z' & s'' & F & F'). injection F' as _ <-.
  unfold evaluate_items in F. destruct (scan l) as [[k hm] nd]. destruct (hm && nd); [discriminate F|].
  apply RunFacts.bind_ok in F. destruct F as (u1 & s2 & F1 & F).
  apply RunFacts.bind_ok in F. destruct F as (calls & s3 & F2 & F3).
  eapply steps_trans; [eapply ps_use; [apply psteps_create|]; [rewrite F1; reflexivity]|].
  eapply steps_trans; [|eapply ps_use; [apply psteps_evaluate|]; [rewrite F3; reflexivity]].
  destruct hm; [|injection F2 as _ <-; apply steps_refl].
  assert (P : psteps E (c <- main_call E k ;; ret [c])%m).
  { unfold main_call, get_identifier, tree_chain_head. repeat match goal with |- psteps _ (if ?b then _ else _) => destruct b
      | |- psteps _ (tick _) => apply psteps_tick | |- psteps _ (ret _) => apply psteps_ret
      | |- psteps _ (bind _ _) => apply psteps_bind; [|intros ?] end. }
  eapply ps_use; [apply P|]. rewrite F2. reflexivity.
Qed.
End Startup.
