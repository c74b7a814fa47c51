(** The command line: /repo/src/main.c, and the command of /repo/src/cscript.c:27-57 for the file of the script. *)
From Coq Require Import ZArith List String Ascii Bool Arith.
From Verif Require Import CInt Tree State Eval Repl Session CScript.
Import ListNotations.
Local Open Scope string_scope.
Local Open Scope nat_scope.
Local Open Scope list_scope.

(** An element of argv: its address and the characters before the NUL, /repo/src/main.c:144. *)
Record arg := mkarg { a_addr : Z; a_text : text }.

(** ** [getopt] of the GNU C library, called in /repo/src/main.c:105 (POSIXLY_CORRECT is not set) *)

(** argv, optind, and the static variables nextchar (NULL is []), first_nonopt and last_nonopt.
    For /repo/src/main.c:105. *)
Record gstate := mkg { g_argv : list arg; g_optind : nat; g_next : text; g_first : nat; g_last : nat }.
(** optind is 1 before the first call, /repo/src/main.c:105. *)
Definition g_start (argv : list arg) : gstate := mkg argv 1 [] 1 1.

(** The elements from [i] up to [j] of argv (/repo/src/main.c:105). *)
Definition slice (l : list arg) (i j : nat) : list arg := firstn (j - i) (skipn i l).
(** exchange in getopt: the elements skipped are put behind the options after them; called from /repo/src/main.c:105. *)
Definition exchange (g : gstate) : gstate :=
  let v := g_argv g in
  mkg (firstn (g_first g) v ++ slice v (g_last g) (g_optind g) ++ slice v (g_first g) (g_last g) ++ skipn (g_optind g) v)
      (g_optind g) (g_next g) (g_first g + (g_optind g - g_last g)) (g_optind g).

(** NONOPTION_P in getopt: the element does not start with a dash, or is only a dash; for /repo/src/main.c:105. *)
Definition nonoption (t : text) : bool :=
  match t with
  | c :: t => negb (Ascii.eqb c "-") || match t with [] => true | _ => false end
  | [] => true
  end.
(** The element that ends the options; for /repo/src/main.c:105. *)
Definition dashes : text := chars "--".
(** strcmp in getopt and at /repo/src/main.c:76. *)
Definition text_eqb (a b : text) : bool := if list_eq_dec ascii_dec a b then true else false.

(** The loop that skips elements that are not options; [l] are the elements from [i] on; for /repo/src/main.c:105. *)
Fixpoint skip_nonoptions (l : list arg) (i : nat) : nat :=
  match l with
  | a :: l => if nonoption (a_text a) then skip_nonoptions l (S i) else i
  | [] => i
  end.

(** What getopt returns: -1, '?', or an option with optarg; /repo/src/main.c:105-106. *)
Inductive opt := Done | Bad | Opt (c : ascii) (optarg : text).

(** The part of getopt before it takes a character: true if there is one to take; for /repo/src/main.c:105. *)
Definition advance (g : gstate) : bool * gstate :=
  match g_next g with
  | _ :: _ => (true, g)
  | [] =>
      let g := if negb (g_first g =? g_last g) && negb (g_last g =? g_optind g) then exchange g
               else if negb (g_last g =? g_optind g) then mkg (g_argv g) (g_optind g) [] (g_optind g) (g_last g) else g in
      let i := skip_nonoptions (skipn (g_optind g) (g_argv g)) (g_optind g) in
      let g := mkg (g_argv g) i [] (g_first g) i in
      let argc := List.length (g_argv g) in
      let g := match nth_error (g_argv g) i with
               | Some a =>
                   if text_eqb (a_text a) dashes then
                     let g := mkg (g_argv g) (S i) [] (g_first g) i in
                     let g := if negb (g_first g =? g_last g) then exchange g else mkg (g_argv g) (S i) [] (S i) (g_last g) in
                     mkg (g_argv g) argc [] (g_first g) argc
                   else g
               | None => g
               end in
      match nth_error (g_argv g) (g_optind g) with
      | Some a => (true, mkg (g_argv g) (g_optind g) (tl (a_text a)) (g_first g) (g_last g))
      | None => (false, if g_first g =? g_last g then g else mkg (g_argv g) (g_first g) [] (g_first g) (g_last g))
      end
  end.

(** [getopt(argc, argv, "vTDl:s:I:")], /repo/src/main.c:105: the characters of the options without and with an argument. *)
Definition flags : text := chars "vTD".
(** /repo/src/main.c:105. *)
Definition with_arg : text := chars "lsI".
(** strchr in getopt; for /repo/src/main.c:105. *)
Definition is_in (c : ascii) (l : text) : bool := existsb (Ascii.eqb c) l.
(** [getopt] itself, called at /repo/src/main.c:105. *)
Definition getopt (g : gstate) : opt * gstate :=
  match advance g with
  | (false, g) => (Done, g)
  | (true, g) =>
      match g_next g with
      | [] => (Bad, g)
      | c :: t =>
          let i := match t with [] => S (g_optind g) | _ => g_optind g end in
          let g := mkg (g_argv g) i t (g_first g) (g_last g) in
          if is_in c flags then (Opt c [], g)
          else if is_in c with_arg then
            match t with
            | _ :: _ => (Opt c t, mkg (g_argv g) (S i) [] (g_first g) (g_last g))
            | [] => match nth_error (g_argv g) i with
                    | Some a => (Opt c (a_text a), mkg (g_argv g) (S i) [] (g_first g) (g_last g))
                    | None => (Bad, g)
                    end
            end
          else (Bad, g)
      end
  end.

(** ** Options *)

Section Main.
(** dlopen: whether the library can be opened after those opened before; /repo/src/main.c:82, 90. *)
Variable dlopen : list text -> text -> bool.
(** LIBM_SO of gnu/lib-names.h; /repo/src/main.c:77. *)
Variable LIBM_SO : text.

(** [concat_strings], /repo/src/util.c:5-15. *)
Definition concat_strings (a b : text) : text := a ++ b.

(** [open_library], /repo/src/main.c:70-99, with BUILD_LINUX: the libraries opened afterwards, or None. *)
Definition open_library (libs : list text) (libname : text) : option (list text) :=
  let libname := if text_eqb libname (chars "m") then LIBM_SO else libname in
  if dlopen libs libname then Some (libs ++ [libname])
  else
    let full := concat_strings (concat_strings (chars "lib") libname) (chars ".so") in
    if dlopen libs full then Some (libs ++ [full]) else None.

(** What the options set: the libraries opened, include_dirs, flag_print_ast, dump_type == DOT; /repo/src/main.c:22-24, /repo/src/preprocess.c:10. *)
Record settings := mkset { libs : list text; inc_dirs : dirs; print_ast : bool; dot : bool }.
(** The initial values, /repo/src/main.c:22-24, /repo/src/preprocess.c:10. *)
Definition no_settings : settings := mkset [] None false false.

(** How parse_args ends: exit with a status, or return optind with argv and cscript_file; /repo/src/main.c:101-140. *)
Inductive args_end :=
| Exits (status : Z)
| Returns (o : settings) (argv : list arg) (optind : nat) (cscript_file : option text)
| NoFuel.

(** [parse_args], /repo/src/main.c:101-140.  The messages are not modelled. *)
Fixpoint parse_args (fuel : nat) (o : settings) (g : gstate) : args_end :=
  match fuel with
  | O => NoFuel
  | S fuel =>
      match getopt g with
      | (Done, g) => Returns o (g_argv g) (g_optind g) None
      | (Bad, _) => Exits 1
      | (Opt c optarg, g) =>
          if Ascii.eqb c "l" then
            match open_library (libs o) optarg with
            | Some l => parse_args fuel (mkset l (inc_dirs o) (print_ast o) (dot o)) g
            | None => Exits 1
            end
          else if Ascii.eqb c "I" then parse_args fuel (mkset (libs o) (preprocessor_add_include_dir (inc_dirs o) optarg) (print_ast o) (dot o)) g
          else if Ascii.eqb c "v" then Exits 0
          else if Ascii.eqb c "T" then parse_args fuel (mkset (libs o) (inc_dirs o) true (dot o)) g
          else if Ascii.eqb c "s" then Returns o (g_argv g) (g_optind g) (Some optarg)
          else if Ascii.eqb c "D" then parse_args fuel (mkset (libs o) (inc_dirs o) (print_ast o) true) g
          else Exits 1
      end
  end.

(** What main does after parse_args, /repo/src/main.c:152-164. *)
Inductive action :=
| Stops (status : Z)
| Runs_script (o : settings) (file : text) (argv : list arg)
| Starts_repl (o : settings)
| OutOfFuel.

(** The number of characters bounds the number of options, /repo/src/main.c:105. *)
Definition enough (argv : list arg) : nat := S (S (List.length argv + List.length (flat_map a_text argv))).
(** [main], /repo/src/main.c:144-165, up to the call of evaluate_cscript or bic_repl. *)
Definition main_action (argv : list arg) : action :=
  match parse_args (enough argv) no_settings (g_start argv) with
  | Exits n => Stops n
  | Returns o argv i (Some f) => Runs_script o f (skipn (i - 1) argv)
  | Returns o _ _ None => Starts_repl o
  | NoFuel => OutOfFuel
  end.

(** ** The script *)

(** EXTRA_CPP_OPTS is set when the program is built; /repo/src/cscript.c:33. *)
Variable EXTRA_CPP_OPTS : text.
(** The command of [parse_cscript], /repo/src/cscript.c:33. *)
Definition cscript_command (fname : text) : text :=
  chars "gcc -x c -E " ++ EXTRA_CPP_OPTS ++ chars " """ ++ fname ++ chars """".

(** What parse_cscript makes of the output of the command, /repo/src/cscript.c:40-57. *)
Variable output : text -> parsed.
(** The environment of the evaluator depends on the libraries that have been opened, /repo/src/main.c:82, 90. *)
Variable E : list text -> env.

(** [main], /repo/src/main.c:144-165, with a script; None: no script is run. *)
Definition main_script (n : nat) (argv : list arg) : option (M Z) :=
  match main_action argv with
  | Runs_script o f v =>
      Some (bind (eval_init (E [])) (fun _ => evaluate_cscript (E (libs o)) n (output (cscript_command f)) (print_ast o) (map a_addr v)))
  | _ => None
  end.
End Main.
