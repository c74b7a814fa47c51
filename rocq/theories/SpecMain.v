(** Command lines: the options, the script and its arguments; used by C71. *)
From Coq Require Import ZArith List String Ascii Bool.
From Verif Require Import State Main.
Import ListNotations.
Local Open Scope string_scope.
Local Open Scope list_scope.

Definition word (x : string) : list ascii := list_ascii_of_string x.

(** Options, in the order of the command line, and how the command line ends. *)
Inductive item := Library (x : list ascii) | Include (dir : list ascii) | Dump | Dot.
Inductive ending := Version | Usage | Script (file : list ascii) (argv : list arg) | Interactive.

(** An option with an argument, before the rest [r]: the script ends the options; [v] are its arguments. *)
Inductive taken (c : ascii) (x : list ascii) (v : list arg) (rest : list item -> ending -> Prop) : list item -> ending -> Prop :=
| ta_library os e : c = "l"%char -> rest os e -> taken c x v rest (Library x :: os) e
| ta_include os e : c = "I"%char -> rest os e -> taken c x v rest (Include x :: os) e
| ta_script : c = "s"%char -> taken c x v rest [] (Script x v).

(** The elements of the command line after the name of the program.  Elements that are not options are ignored; letters can be put together after
    one dash; the argument of l, I and s is the rest of the element or the next element. *)
Inductive command : list arg -> list item -> ending -> Prop :=
| co_end : command [] [] Interactive
| co_stop a l : a_text a = word "--" -> command (a :: l) [] Interactive
| co_operand a l os e : a_text a = word "-" \/ (forall t, a_text a <> "-"%char :: t) -> command l os e -> command (a :: l) os e
| co_letters a t l os e : a_text a = "-"%char :: t -> t <> [] -> t <> word "-" -> letters a t l os e -> command (a :: l) os e
(** The letters still to read of the element [a], before the elements [l]. *)
with letters : arg -> list ascii -> list arg -> list item -> ending -> Prop :=
| le_end a l os e : command l os e -> letters a [] l os e
| le_version a t l : letters a ("v"%char :: t) l [] Version
| le_dump a t l os e : letters a t l os e -> letters a ("T"%char :: t) l (Dump :: os) e
| le_dot a t l os e : letters a t l os e -> letters a ("D"%char :: t) l (Dot :: os) e
| le_attached a c t l os e : In c (word "lIs") -> t <> [] -> taken c t (a :: l) (command l) os e -> letters a (c :: t) l os e
| le_next a c b l os e : In c (word "lIs") -> taken c (a_text b) (b :: l) (command l) os e -> letters a [c] (b :: l) os e
| le_missing a c : In c (word "lIs") -> letters a [c] [] [] Usage
| le_unknown a c t l : ~ In c (word "vTDlIs") -> letters a (c :: t) l [] Usage.

Section Carried.
Variable dlopen : list (list ascii) -> list ascii -> bool.
Variable LIBM_SO : list ascii.

(** The names tried for a library: the name itself, where m is LIBM_SO, and with lib before it and .so after it. *)
Definition tried (x : list ascii) (y z : list ascii) : Prop :=
  exists n, (x = word "m" /\ n = LIBM_SO \/ x <> word "m" /\ n = x) /\ y = n /\ z = word "lib" ++ n ++ word ".so".
Definition opened (before : list (list ascii)) (x w : list ascii) : Prop :=
  exists y z, tried x y z /\ (dlopen before y = true /\ w = y \/ dlopen before y = false /\ dlopen before z = true /\ w = z).
Definition refused (before : list (list ascii)) (x : list ascii) : Prop :=
  exists y z, tried x y z /\ dlopen before y = false /\ dlopen before z = false.

(** The options are carried out one after the other; a library that cannot be opened ends the program with status 1. *)
Inductive carried : settings -> list item -> ending -> action -> Prop :=
| ca_opened o x w os e r : opened (libs o) x w -> carried (mkset (libs o ++ [w]) (inc_dirs o) (print_ast o) (dot o)) os e r -> carried o (Library x :: os) e r
| ca_refused o x os e : refused (libs o) x -> carried o (Library x :: os) e (Stops 1)
| ca_include o x os e r :
    carried (mkset (libs o) (Some (match inc_dirs o with Some l => l | None => [] end ++ [x])) (print_ast o) (dot o)) os e r -> carried o (Include x :: os) e r
| ca_dump o os e r : carried (mkset (libs o) (inc_dirs o) true (dot o)) os e r -> carried o (Dump :: os) e r
| ca_dot o os e r : carried (mkset (libs o) (inc_dirs o) (print_ast o) true) os e r -> carried o (Dot :: os) e r
| ca_version o : carried o [] Version (Stops 0)
| ca_usage o : carried o [] Usage (Stops 1)
| ca_script o f v : carried o [] (Script f v) (Runs_script o f v)
| ca_repl o : carried o [] Interactive (Starts_repl o).
End Carried.

(** The program with the command line [argv], started in the state [s0] with what the preprocessor makes of the script given by [output], runs a
    script with the outcome [r]. *)
Definition runs_as dlopen LIBM_SO OPTS output (E : list (list ascii) -> env) (argv : list arg) (s0 : state) (r : res Z) : Prop :=
  r <> Fuel /\ exists n m, main_script dlopen LIBM_SO OPTS output E n argv = Some m /\ m s0 = r.
(** The command that gives the script to the preprocessor. *)
Definition preprocess_command (OPTS file : list ascii) : list ascii := word "gcc -x c -E " ++ OPTS ++ word " """ ++ file ++ word """".
