(** The file that the REPL runs before its first prompt; used by C75. *)
From Coq Require Import ZArith List String Ascii.
From Verif Require Import CInt Tree State Eval Repl Session CScript Main Startup SpecRun.
Import ListNotations.
Local Open Scope string_scope.
Local Open Scope list_scope.

(** The home directory of the user: the value of HOME, else what the password database says. *)
Definition home_directory (U : user) (h : text) : Prop :=
  u_home U = Some h \/ (u_home U = None /\ u_passwd U = Some (Some h)).

(** The command that reads the file .bic in the directory [h]. *)
Definition dotfile_command (opts h : text) : text :=
  chars "gcc -x c -E " ++ opts ++ chars " " ++ [""""%char] ++ h ++ chars "/.bic" ++ [""""%char].

(** What comes before the first prompt has the outcome [r]. *)
Definition startup (E : env) (opts : text) (output : text -> parsed) (readable : text -> bool) (asprintf : text -> option Z)
    (U : user) (s : state) (r : res unit) : Prop :=
  r <> State.Fuel /\ exists n, evaluate_startup_file E opts output readable asprintf U n s = r.

(** The result of a script, without its number. *)
Definition forget (r : res Z) : res unit :=
  match r with
  | Ok _ s => Ok tt s | Jmp i s => Jmp i s | Die s => Die s | Abort s => Abort s | Exit n s => Exit n s
  | UB => UB | State.Fuel => State.Fuel | NoMemory n s => NoMemory n s | Unmodelled s => Unmodelled s
  end.
