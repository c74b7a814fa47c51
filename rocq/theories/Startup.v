(** The startup file of the REPL: /repo/src/repl.c:433-462. *)
From Coq Require Import ZArith List String Ascii Bool.
From Verif Require Import CInt Tree State Eval Repl Typename Lexer Session CScript Main.
Import ListNotations.
Local Open Scope string_scope.
Local Open Scope list_scope.
Local Open Scope m_scope.

(** What the system knows about the user, /repo/src/repl.c:438-440: getenv("HOME"), and getpwuid(getuid()): None if it returns NULL,
    otherwise its pw_dir. *)
Record user := mkuser { u_home : option text; u_passwd : option (option text) }.

Section Startup.
Variable E : env.
Variable H : host.
(** EXTRA_CPP_OPTS and parse_cscript as in Main.v, /repo/src/cscript.c:33-57.  The identities of the nodes are those in the given trees. *)
Variable EXTRA_CPP_OPTS : text.
(** The items of the file, /repo/src/cscript.c:40-57. *)
Variable output : text -> parsed.
(** The names of types after the file has been parsed, /repo/src/cscript.c:48. *)
Variable types : text -> Typename.names.
(** [access(dotfile, R_OK)] is 0, /repo/src/repl.c:451. *)
Variable readable : text -> bool.
(** [asprintf], /repo/src/repl.c:445: the address of the new string; None if dotfile is NULL afterwards.  The block of the string is not
    one of the evaluator's. *)
Variable asprintf : text -> option Z.
(** The user, /repo/src/repl.c:438-440. *)
Variable U : user.

(** homedir, /repo/src/repl.c:438-440; None: a null pointer is read. *)
Definition homedir : option (option text) :=
  match u_home U with
  | Some h => Some (Some h)
  | None => u_passwd U
  end.

(** The "%s/%s" of /repo/src/repl.c:445. *)
Definition dotfile (home : text) : text := home ++ chars "/" ++ chars ".bic".

(** [evaluate_startup_file], /repo/src/repl.c:433-455. *)
Definition evaluate_startup_file (n : nat) : M unit :=
  match homedir with
  | None => ub
  | Some None => ret tt
  | Some (Some home) =>
      match asprintf (dotfile home) with
      | None => ret tt
      | Some p =>
          if readable (dotfile home)
          then evaluate_cscript E n (output (cscript_command EXTRA_CPP_OPTS (dotfile home))) false [p] ;; ret tt
          else ret tt
      end
  end.

(** The names of types at the first prompt: those of typename_init (/repo/src/main.c:149), or those after the file
    (/repo/src/repl.c:454). *)
Definition startup_names : Typename.names :=
  match homedir with
  | Some (Some home) =>
      match asprintf (dotfile home) with
      | Some _ => if readable (dotfile home) then types (cscript_command EXTRA_CPP_OPTS (dotfile home)) else typename_init names_start
      | None => typename_init names_start
      end
  | _ => typename_init names_start
  end.

(** [bic_repl], /repo/src/repl.c:457-491: from the state [s] of the evaluator, after the given lines have been read. *)
Definition bic_repl (s : state) (lines : list text) (out : text) (se : session) : Prop :=
  exists n s1, evaluate_startup_file n s = Ok tt s1 /\ repl_rounds E H (mksession lex_start startup_names s1) lines out se.
End Startup.
