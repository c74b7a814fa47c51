(** Property theorems about the startup file of the REPL: C75. *)
From Coq Require Import ZArith List String Ascii Bool Lia.
From Verif Require Import CInt Tree State Eval StepsFacts Repl Typename Session CScript Main Startup SpecRun SpecNames SpecTypes SpecExpr SpecVars SpecPtr SpecControl SpecStmt
  SpecCScript SpecStartup RunFacts NameFacts CScriptFacts SessionFacts2 StartupFacts VarFacts TestEnv TestRun PropsCScript PropsVars.
Import ListNotations.
Local Open Scope string_scope.
Local Open Scope Z_scope.
Local Open Scope list_scope.

(** ** C75: the startup file *)

(** Without a home directory, or without a readable file .bic in it, the first prompt comes in the state after the initialisation. *)
Theorem C75_no_file : forall E opts output readable asprintf U s,
  (u_home U = None /\ u_passwd U = Some None) \/
  (exists h, home_directory U h /\ (asprintf (h ++ chars "/.bic") = None \/ readable (h ++ chars "/.bic") = false)) ->
  forall r, startup E opts output readable asprintf U s r <-> r = Ok tt s.
Proof.
  intros E opts output readable asprintf U s [[H1 H2]|(h & Hh & Ha)]; [|apply (startup_unreadable E opts output readable asprintf U h s Hh Ha)].
  apply (startup_none E opts output readable asprintf U s); [|exact H2]. intros h [H|[_ H]]; [rewrite H in H1; discriminate H1|rewrite H in H2; discriminate H2].
Qed.
Print Assumptions C75_no_file.

(** A user without HOME and without an entry in the password database: a null pointer is read. *)
Theorem C75_no_user : forall E opts output readable asprintf U s, u_home U = None -> u_passwd U = None ->
  forall r, startup E opts output readable asprintf U s r <-> r = UB.
Proof. exact startup_no_user. Qed.
Print Assumptions C75_no_user.

(** Otherwise the file is run like a script (C40 - C42) whose only argument is the path of the file; HOME is preferred to the password database.
    The result of the script does not matter if it is a number: the prompt comes in the state the script has left. *)
Theorem C75_file : forall E opts output readable asprintf U h p s l,
  home_directory U h -> asprintf (h ++ chars "/.bic") = Some p -> readable (h ++ chars "/.bic") = true ->
  output (dotfile_command opts h) = Items l ->
  forall r, startup E opts output readable asprintf U s r <-> exists r', script E s l [p] r' /\ r = forget r'.
Proof. intros E opts output readable asprintf U h p s l Hh Ha Hr. apply (startup_script E opts output readable asprintf U h p Hh Ha Hr). Qed.
Print Assumptions C75_file.

(** A file that gcc cannot read changes nothing; a syntax error in it ends the process with status 1. *)
Theorem C75_unparsed : forall E opts output readable asprintf U h p s,
  home_directory U h -> asprintf (h ++ chars "/.bic") = Some p -> readable (h ++ chars "/.bic") = true ->
  (output (dotfile_command opts h) = Not_parsed -> forall r, startup E opts output readable asprintf U s r <-> r = Ok tt s) /\
  (output (dotfile_command opts h) = Syntax_error -> forall r, startup E opts output readable asprintf U s r <-> r = Exit 1 s).
Proof.
  intros E opts output readable asprintf U h p s Hh Ha Hr. split.
  - apply (startup_not_parsed E opts output readable asprintf U h p Hh Ha Hr).
  - apply (startup_syntax E opts output readable asprintf U h p Hh Ha Hr).
Qed.
Print Assumptions C75_unparsed.

(** A file without main: unless memory is refused for them, argc and argv are made, the items are executed, and the first prompt comes in the
    state after them.  If no break statement was executed, argc and argv are still variables of the innermost scope there. *)
Theorem C75_items : forall E opts output readable asprintf U h p s l,
  home_directory U h -> asprintf (h ++ chars "/.bic") = Some p -> readable (h ++ chars "/.bic") = true ->
  started E s -> 0 <= p < 2 ^ 64 -> output (dotfile_command opts h) = Items l -> top_level l -> ~ has_main l ->
  (exists k s', forall r, startup E opts output readable asprintf U s r <-> r = NoMemory k s') \/
  exists s1, arguments E s [p] (Ok tt s1) /\ has_arguments E s1 [p] /\
    forall s2, items E l s1 s2 -> (forall r, startup E opts output readable asprintf U s r <-> r = Ok tt s2) /\
      (breaks s2 = breaks s -> exists a b c cs, stack s2 = c :: cs /\
        entry (c_idmap c) "argc" (T_LIVE_VAR (D_T D_T_INT) a false 0) /\
        entry (c_idmap c) "argv" (T_LIVE_VAR (D_T_PTR (D_T_PTR (D_T D_T_CHAR))) b true 8)).
Proof. intros E opts output readable asprintf U h p s l Hh Ha Hr. apply (startup_items E opts output readable asprintf U h p Hh Ha Hr). Qed.
Print Assumptions C75_items.

(** So at that prompt [int argc;], or any other declaration of a number or pointer variable argc or argv, ends the REPL with an error
    (or there is no memory); in a REPL without startup file the name is free (C74_names). *)
Theorem C75_redeclared : forall E opts output readable asprintf U h p s l s1 s2 x lbl specs t n,
  home_directory U h -> asprintf (h ++ chars "/.bic") = Some p -> readable (h ++ chars "/.bic") = true ->
  started E s -> 0 <= p < 2 ^ 64 -> output (dotfile_command opts h) = Items l -> top_level l -> ~ has_main l ->
  arguments E s [p] (Ok tt s1) -> items E l s1 s2 -> breaks s2 = breaks s ->
  x = "argc" \/ x = "argv" ->
  zfind lbl (statics s2) = None -> names_type specs t -> scalar t -> no_storage_class specs ->
  let d := T_DECL lbl (CHAIN_HEAD (map T_SPEC specs)) (CHAIN_HEAD [stars n (T_IDENTIFIER x)]) in
  startup E opts output readable asprintf U s (Ok tt s2) /\ (out_of_memory E s2 d 16 \/ exists s', runs E s2 d (Die s')).
Proof.
  intros E opts output readable asprintf U h p s l s1 s2 x lbl specs t n Hh Ha Hr Hs Hp Ho Ht Hm Hg Hi Hb Hx Hz Hn Hsc Hst d.
  assert (Ho' : forall r, startup E opts output readable asprintf U s r <-> exists r', script E s l [p] r' /\ r = forget r')
    by apply (C75_file E opts output readable asprintf U h p s l Hh Ha Hr Ho).
  destruct (C75_items E opts output readable asprintf U h p s l Hh Ha Hr Hs Hp Ho Ht Hm) as [(k & s' & N)|(s1' & Hg' & _ & It)].
  - exfalso. assert (Q : startup E opts output readable asprintf U s (Ok tt s2)).
    { apply Ho'. exists (Ok 0 s2). split; [|reflexivity]. apply (script_no_main E s l [p] s1 Ht Hm Hg). exists (Ok tt s2).
      split; [apply BreakFacts.block_items, Hi|constructor]. }
    apply N in Q. discriminate Q.
  - pose proof (arguments_fun E _ _ _ _ Hg Hg') as Q. injection Q as <-. destruct (It s2 Hi) as [A B]. split; [apply A; reflexivity|].
    destruct (B Hb) as (a & b & c & cs & Hstk & Ea & Eb).
    apply (C15_redeclaration_dies E lbl specs t n x s2 c cs Hz Hn Hsc Hst Hstk).
    destruct Hx as [->| ->]; eexists; (split; [|eassumption]); discriminate.
Qed.
Print Assumptions C75_redeclared.

(** [return e;] at the top level of the file, and an error in it, end the process; there is no prompt. *)
Theorem C75_return : forall E opts output readable asprintf U h p s l pre lbl e post s1 s2 v s3 z s4,
  home_directory U h -> asprintf (h ++ chars "/.bic") = Some p -> readable (h ++ chars "/.bic") = true ->
  started E s -> output (dotfile_command opts h) = Items l ->
  arguments E s [p] (Ok tt s1) -> executes E s l [p] (pre ++ T_RETURN lbl e :: post) s1 ->
  items E pre s1 s2 -> zfind lbl (ov_ret s2) = None -> runs E s2 e (Ok v s3) -> breaks s3 = breaks s ->
  int_value E (set_ov_ret (fun o => (lbl, v) :: o) s3) v (Ok z s4) ->
  forall r, startup E opts output readable asprintf U s r <-> r = Exit (smod 32 z) s4.
Proof.
  intros E opts output readable asprintf U h p s l pre lbl e post s1 s2 v s3 z s4 Hh Ha Hr Hs Ho H2 H3 H4 H5 H6 H7 H8.
  apply (startup_only E opts output readable asprintf U h p Hh Ha Hr s l (Exit (smod 32 z) s4) Ho).
  apply (C41_return E s l [p] pre lbl e post s1 s2 v s3 z s4 Hs H2 H3 H4 H5 H6 H7 H8).
Qed.
Print Assumptions C75_return.

Theorem C75_error : forall E opts output readable asprintf U h p s l pre i post s2 s3 s4,
  home_directory U h -> asprintf (h ++ chars "/.bic") = Some p -> readable (h ++ chars "/.bic") = true ->
  output (dotfile_command opts h) = Items l ->
  executes E s l [p] (pre ++ i :: post) s2 -> items E pre s2 s3 -> runs E s3 i (Die s4) ->
  forall r, startup E opts output readable asprintf U s r <-> r = Die s4.
Proof.
  intros E opts output readable asprintf U h p s l pre i post s2 s3 s4 Hh Ha Hr Ho H1 H2 H3.
  apply (startup_only E opts output readable asprintf U h p Hh Ha Hr s l (Die s4) Ho).
  apply (C41_error E s l [p] pre i post s2 s3 s4 H1 H2 H3).
Qed.
Print Assumptions C75_error.

(** Whatever the file and the lines typed: the state is one of those the other theorems are about. *)
Theorem C75_reachable : forall E H opts output types readable asprintf U s lines out se,
  started E s -> bic_repl E H opts output types readable asprintf U s lines out se -> reachable E (se_eval se).
Proof.
  intros E H opts output types readable asprintf U s lines out se Hs (n & s1 & F & R). destruct (started_facts E s Hs) as [Hr _].
  eapply reachable_steps; [exact Hr|]. eapply steps_trans; [|apply (rounds_steps E H _ _ _ _ R)].
  apply (startup_steps E opts output readable asprintf U). split; [discriminate|]. exists n. exact F.
Qed.
Print Assumptions C75_reachable.

(** Without a file the lines are read as C68 and the others about sessions say. *)
Theorem C75_session : forall E H opts output types readable asprintf U s lines out se,
  (u_home U = None /\ u_passwd U = Some None) \/
  (exists h, home_directory U h /\ readable (h ++ chars "/.bic") = false) ->
  (bic_repl E H opts output types readable asprintf U s lines out se <-> repl_rounds E H (session_start s) lines out se).
Proof.
  intros E H opts output types readable asprintf U s lines out se Hn.
  assert (F : forall r, startup E opts output readable asprintf U s r <-> r = Ok tt s).
  { apply C75_no_file. destruct Hn as [Hn|(h & Hh & Hr)]; [left; exact Hn|right; exists h; auto]. }
  assert (N : startup_names opts types readable asprintf U = typename_init names_start).
  { unfold startup_names. destruct Hn as [[H1 H2]|(h & Hh & Hr)]; [unfold homedir; rewrite H1, H2; reflexivity|].
    rewrite (home_of _ _ Hh). replace (dotfile h) with (h ++ chars "/.bic") by reflexivity. rewrite Hr. destruct (asprintf _); reflexivity. }
  unfold bic_repl, session_start. rewrite N. split.
  - intros (n & s1 & G & R). assert (Q : Ok tt s1 = Ok tt s) by (apply F; split; [discriminate|exists n; exact G]). injection Q as ->. exact R.
  - intros R. destruct (proj2 (F (Ok tt s)) eq_refl) as [_ [n G]]. exists n, s. auto.
Qed.
Print Assumptions C75_session.

(** With a file the lines are read in the state the file has left, and the names of types are those known after the file. *)
Theorem C75_lines : forall E H opts output types readable asprintf U h p s lines out se,
  home_directory U h -> asprintf (h ++ chars "/.bic") = Some p -> readable (h ++ chars "/.bic") = true ->
  (bic_repl E H opts output types readable asprintf U s lines out se <->
   exists s1, startup E opts output readable asprintf U s (Ok tt s1) /\
     repl_rounds E H (mksession Lexer.lex_start (types (dotfile_command opts h)) s1) lines out se).
Proof.
  intros E H opts output types readable asprintf U h p s lines out se Hh Ha Hr.
  assert (N : startup_names opts types readable asprintf U = types (dotfile_command opts h)).
  { unfold startup_names. rewrite (home_of _ _ Hh), dotfile_text. replace (dotfile h) with (h ++ chars "/.bic") by reflexivity. rewrite Ha, Hr. reflexivity. }
  unfold bic_repl. rewrite N. split.
  - intros (n & s1 & G & R). exists s1. split; [split; [discriminate|exists n; exact G]|exact R].
  - intros (s1 & [_ [n G]] & R). exists n, s1. auto.
Qed.
Print Assumptions C75_lines.

(** The user has HOME=/home/u and there [int x = 3;] in .bic: at the first prompt x is 3, and [int argc;] is an error. *)
Definition user0 : user := mkuser (Some (chars "/home/u")) None.
Definition dot0 : list tree := [init_int (-1) "x" (num 3)].
Definition output0 (c : text) : parsed := if text_eqb c (chars "gcc -x c -E  ""/home/u/.bic""") then Items dot0 else Not_parsed.
Definition path0 (t : text) : option Z := if text_eqb t (chars "/home/u/.bic") then Some 5000 else None.
Definition made1 : state := final_state (made [5000]).
Definition prompt0 : state := final_state (outcome made1 (init_int (-1) "x" (num 3))).
Lemma dot0_items : items env0 dot0 made1 prompt0.
Proof.
  apply (items_cons env0 _ _ made1 (id "x") prompt0 prompt0); [|reflexivity|apply items_nil].
  apply outcome_ok. vm_compute. reflexivity.
Qed.
Example C75_nontrivial : home_directory user0 (chars "/home/u") /\ path0 (chars "/home/u" ++ chars "/.bic") = Some 5000 /\ started env0 s0 /\
  output0 (dotfile_command [] (chars "/home/u")) = Items dot0 /\ top_level dot0 /\ ~ has_main dot0 /\
  arguments env0 s0 [5000] (Ok tt made1) /\ items env0 dot0 made1 prompt0 /\ breaks prompt0 = breaks s0 /\
  startup env0 [] output0 (fun _ => true) path0 user0 s0 (Ok tt prompt0) /\
  exists s', runs env0 prompt0 (T_DECL 900 (CHAIN_HEAD [T_SPEC T_INT_TS]) (CHAIN_HEAD [T_IDENTIFIER "argc"])) (Die s').
Proof.
  assert (Hh : home_directory user0 (chars "/home/u")) by (left; reflexivity).
  assert (Hp : path0 (chars "/home/u" ++ chars "/.bic") = Some 5000) by (vm_compute; reflexivity).
  assert (Ho : output0 (dotfile_command [] (chars "/home/u")) = Items dot0) by (vm_compute; reflexivity).
  assert (Ht : top_level dot0) by (constructor; [left; do 3 eexists; split; [reflexivity|right; do 2 eexists; reflexivity]|constructor]).
  assert (Hm : ~ has_main dot0) by (intros (i & n & [<-|[]] & Hm); inversion Hm).
  assert (Hg : arguments env0 s0 [5000] (Ok tt made1)) by (apply made_ok; vm_compute; reflexivity).
  assert (Hi : items env0 dot0 made1 prompt0) by exact dot0_items.
  assert (Hb : breaks prompt0 = breaks s0) by (vm_compute; reflexivity).
  assert (Hz : zfind 900 (statics prompt0) = None) by (vm_compute; reflexivity).
  assert (Hk : kind_of (outcome prompt0 (T_DECL 900 (CHAIN_HEAD [T_SPEC T_INT_TS]) (CHAIN_HEAD [T_IDENTIFIER "argc"]))) = KDie) by (vm_compute; reflexivity).
  assert (Hd : exists s', runs env0 prompt0 (T_DECL 900 (CHAIN_HEAD [T_SPEC T_INT_TS]) (CHAIN_HEAD [T_IDENTIFIER "argc"])) (Die s')).
  { eexists. apply outcome_die. exact Hk. }
  repeat (split; [assumption || exact started_s0|]). split; [|exact Hd].
  destruct (C75_items env0 [] output0 (fun _ => true) path0 user0 (chars "/home/u") 5000 s0 dot0 Hh Hp eq_refl started_s0 ltac:(lia) Ho Ht Hm) as [(k & s' & N)|(s1 & Hg' & _ & It)].
  - exfalso. assert (Q : startup env0 [] output0 (fun _ => true) path0 user0 s0 (Ok tt prompt0)).
    { apply (C75_file env0 [] output0 (fun _ => true) path0 user0 (chars "/home/u") 5000 s0 dot0 Hh Hp eq_refl Ho). exists (Ok 0 prompt0). split; [|reflexivity].
      apply (script_no_main env0 s0 dot0 [5000] made1 Ht Hm Hg). exists (Ok tt prompt0). split; [apply BreakFacts.block_items, Hi|constructor]. }
    apply N in Q. clear - Q. revert Q. generalize prompt0. intros s Q. discriminate Q.
  - pose proof (arguments_fun env0 _ _ _ _ Hg Hg') as Q. assert (Q1 : s1 = made1). { clear - Q. revert Q. generalize made1. intros m Q. injection Q as <-. reflexivity. }
    subst s1. apply (It prompt0 Hi). reflexivity.
Qed.
