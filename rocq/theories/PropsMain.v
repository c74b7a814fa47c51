(** C71: the command line (src/main.c, src/cscript.c:27-57).  [dlopen] says which libraries can be opened, [LIBM_SO] is the name of the mathematics
    library, [OPTS] are the options for the preprocessor set when the program is built, [output] is what the parser makes of the output of a command,
    [E] are the external functions and memory when some libraries have been opened. *)
From Coq Require Import ZArith List String Ascii Bool Lia.
From Verif Require Import CInt Tree State Eval CScript Main SpecRun SpecCScript SpecMain MainFacts TestEnv TestRun PropsCScript.
Import ListNotations.
Local Open Scope string_scope.
Local Open Scope Z_scope.
Local Open Scope list_scope.

(** C71.  Every command line is read in exactly one way ([command], SpecMain.v), and main does what [carried] says: the options one after the other. *)
Theorem C71_command : forall dlopen LIBM_SO prog l, exists os e, command l os e /\ (forall os' e', command l os' e' -> os' = os /\ e' = e) /\
  forall r, carried dlopen LIBM_SO no_settings os e r <-> main_action dlopen LIBM_SO (prog :: l) = r.
Proof. exact command_line. Qed.
Print Assumptions C71_command.

(** Options before -s FILE are carried out; nothing after FILE is read as an option, and the arguments of the script are FILE and what follows. *)
Theorem C71_script : forall dlopen LIBM_SO prog l os s f rest, command l os Interactive -> ~ In (word "--") (map a_text l) -> a_text s = word "-s" ->
  forall r, carried dlopen LIBM_SO no_settings os (Script (a_text f) (f :: rest)) r <-> main_action dlopen LIBM_SO (prog :: l ++ s :: f :: rest) = r.
Proof. exact script_last. Qed.
Print Assumptions C71_script.

(** The script is run as in C40-C42, with the addresses of these arguments and the libraries that were opened. *)
Theorem C71_runs : forall dlopen LIBM_SO OPTS output E argv o f v s0 s items, main_action dlopen LIBM_SO argv = Runs_script o f v ->
  eval_init (E []) s0 = Ok tt s -> output (preprocess_command OPTS f) = Items items -> print_ast o = false ->
  forall r, runs_as dlopen LIBM_SO OPTS output E argv s0 r <-> script (E (libs o)) s items (map a_addr v) r.
Proof.
  intros dlopen LIBM_SO OPTS output E argv o f v s0 s items A I O P r. rewrite (main_runs dlopen LIBM_SO OPTS output E argv o f v s0 s A I r).
  rewrite O, P. reflexivity.
Qed.
Print Assumptions C71_runs.

(** With -T nothing of a script that can be parsed is executed, and the status is 0.  A script that cannot be parsed gives the status 1 or 254. *)
Theorem C71_status : forall dlopen LIBM_SO OPTS output E argv o f v s0 s, main_action dlopen LIBM_SO argv = Runs_script o f v ->
  eval_init (E []) s0 = Ok tt s ->
  (forall items, output (preprocess_command OPTS f) = Items items -> print_ast o = true ->
    forall r, runs_as dlopen LIBM_SO OPTS output E argv s0 r <-> r = Exit 0 s) /\
  (output (preprocess_command OPTS f) = Syntax_error -> forall r, runs_as dlopen LIBM_SO OPTS output E argv s0 r <-> r = Exit 1 s) /\
  (output (preprocess_command OPTS f) = Not_parsed -> forall r, runs_as dlopen LIBM_SO OPTS output E argv s0 r <-> r = Ok 254 s).
Proof.
  intros dlopen LIBM_SO OPTS output E argv o f v s0 s A I.
  pose proof (main_runs dlopen LIBM_SO OPTS output E argv o f v s0 s A I) as M.
  split; [intros items O P r|split; intros O r]; rewrite M, O; [rewrite P| |]; cbn [evaluate_cscript];
    (split; [intros (_ & n & R); symmetry; exact R|intros ->; split; [discriminate|exists 0%nat; reflexivity]]).
Qed.
Print Assumptions C71_status.

(** -I has no effect on a script: the directories are not given to the preprocessor.  (The usage message says that they are searched.) *)
Theorem C71_include_ignored : forall dlopen LIBM_SO OPTS output E prog i d l n, a_text i = word "-I" ->
  main_script dlopen LIBM_SO OPTS output E n (prog :: i :: d :: l) = main_script dlopen LIBM_SO OPTS output E n (prog :: l).
Proof. exact include_ignored. Qed.
Print Assumptions C71_include_ignored.

(** Examples: [bic x -DTlm -l z -s f -v --].  Only libm.so.6 and libz.so can be opened. *)
Definition lib0 (before : list (list ascii)) (x : list ascii) : bool :=
  if list_eq_dec ascii_dec x (word "libm.so.6") then true else if list_eq_dec ascii_dec x (word "libz.so") then true else false.
Definition arg0 (a : Z) (x : string) : arg := mkarg a (word x).
Definition prog0 : arg := arg0 1000 "bic".
Definition opts0 : list arg := [arg0 1004 "x"; arg0 1006 "-DTlm"; arg0 1012 "-l"; arg0 1015 "z"].
Definition opts0_items : list item := [Dot; Dump; Library (word "m"); Library (word "z")].
Definition rest0 : list arg := [arg0 1020 "-v"; arg0 1023 "--"].
Example C71_nontrivial : command opts0 opts0_items Interactive /\ ~ In (word "--") (map a_text opts0) /\
  carried lib0 (word "libm.so.6") no_settings opts0_items (Script (word "f") (arg0 1019 "f" :: rest0))
    (Runs_script (mkset [word "libm.so.6"; word "libz.so"] None true true) (word "f") (arg0 1019 "f" :: rest0)) /\
  main_action lib0 (word "libm.so.6") (prog0 :: opts0 ++ arg0 1017 "-s" :: arg0 1019 "f" :: rest0) =
    Runs_script (mkset [word "libm.so.6"; word "libz.so"] None true true) (word "f") (arg0 1019 "f" :: rest0).
Proof.
  split.
  { apply co_operand; [right; discriminate|]. apply (co_letters _ (word "DTlm")); [reflexivity|discriminate|discriminate|].
    apply le_dot, le_dump. apply (le_attached _ "l" (word "m")); [cbn; tauto|discriminate|]. apply ta_library; [reflexivity|].
    apply (co_letters _ (word "l")); [reflexivity|discriminate|discriminate|]. apply le_next; [cbn; tauto|]. apply ta_library; [reflexivity|]. constructor. }
  split; [cbn; intuition discriminate|]. split; [|vm_compute; reflexivity].
  apply ca_dot, ca_dump. apply (ca_opened _ _ _ _ (word "libm.so.6")).
  { exists (word "libm.so.6"), (word "liblibm.so.6.so"). split; [exists (word "libm.so.6"); auto|]. left. split; reflexivity. }
  apply (ca_opened _ _ _ _ (word "libz.so")).
  { exists (word "z"), (word "libz.so"). split; [exists (word "z"); split; [right; split; [discriminate|reflexivity]|auto]|]. right. repeat split; reflexivity. }
  apply ca_script.
Qed.
(** [bic -l q -v] stops with status 1, [bic -v -l q] with status 0, [bic -Tx] with status 1, [bic -s] with status 1, [bic -- -v] starts the REPL. *)
Example C71_stops : let act l := main_action lib0 (word "libm.so.6") (prog0 :: map (arg0 1004) l) in
  act ["-l"; "q"; "-v"] = Stops 1 /\ act ["-v"; "-l"; "q"] = Stops 0 /\ act ["-Tx"] = Stops 1 /\ act ["-s"] = Stops 1 /\ act ["--"; "-v"] = Starts_repl no_settings.
Proof. vm_compute. repeat split. Qed.

(** It is false that the first argument of a script is always the name of the script: in [bic -sf] it is -sf. *)
Theorem C71_argv0_refuted : exists dlopen LIBM_SO prog l o f a v, main_action dlopen LIBM_SO (prog :: l) = Runs_script o f (a :: v) /\ a_text a <> f.
Proof.
  exists lib0, (word "libm.so.6"), prog0, [arg0 1004 "-sf"], no_settings, (word "f"), (arg0 1004 "-sf"), []. split; [vm_compute; reflexivity|discriminate].
Qed.
Print Assumptions C71_argv0_refuted.

(** The hypotheses of C71_runs and C71_status: [bic -s f -v] with a script of one item. *)
Example C71_nontrivial_runs : exists o v, main_action lib0 [] [prog0; arg0 1004 "-s"; arg0 1007 "f"; arg0 1009 "-v"] = Runs_script o (word "f") v /\
  started env0 s0 /\ print_ast o = false /\ map a_addr v = [1007; 1009].
Proof. eexists _, _. split; [vm_compute; reflexivity|]. split; [exact PropsCScript.started_s0|split; reflexivity]. Qed.
