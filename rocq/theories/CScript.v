(** Scripts: /repo/src/cscript.c and the part of main in /repo/src/main.c:144-165 that runs one. *)
From Coq Require Import ZArith List String Bool.
From Verif Require Import CInt Tree State Eval.
Import ListNotations.
Local Open Scope string_scope.
Local Open Scope Z_scope.
Local Open Scope list_scope.
Local Open Scope m_scope.

Section Script.
Variable E : env.

(** ** Making nodes (/repo/src/tree.c:5-32, /repo/src/tree.h:121-126) *)

(** [tree_make(T_DECL)] and [tree_make(T_ASSIGN)], /repo/src/tree.c:5-11: the identity of the new node. *)
Definition new_node : M Z := tick E ;; fresh_id.

(** [get_identifier], /repo/src/tree.c:13-18. *)
Definition get_identifier (x : string) : M tree := tick E ;; ret (T_IDENTIFIER x).

(** [get_integer], /repo/src/tree.c:20-25; the parameter is an unsigned int. *)
Definition get_integer (n : Z) : M tree := tick E ;; ret (T_INTEGER (n mod 2 ^ 32)).

(** [get_addr], /repo/src/tree.c:27-32. *)
Definition get_addr (p : Z) : M tree := tick E ;; ret (T_INTEGER (u64 p)).

(** [tree_chain_head], /repo/src/tree.h:121-126. *)
Definition tree_chain_head (t : tree) : M tree := tick E ;; ret (CHAIN_HEAD [t]).

(** ** The arguments of the script *)

(** [int argc = n], /repo/src/cscript.c:62-75.  The declarator is no chain. *)
Definition argc_decl (n : Z) : M tree :=
  d <- new_node ;;
  a <- new_node ;;
  x <- get_identifier "argc" ;;
  z <- get_integer n ;;
  tick E ;;
  specs <- tree_chain_head (T_SPEC T_INT_TS) ;;
  ret (T_DECL d specs (T_ASSIGN a x z)).

(** [char *argv[n]], /repo/src/cscript.c:77-90. *)
Definition argv_decl (n : Z) : M tree :=
  d <- new_node ;;
  tick E ;;
  tick E ;;
  tick E ;;
  specs <- tree_chain_head (T_SPEC T_CHAR_TS) ;;
  z <- get_integer n ;;
  x <- get_identifier "argv" ;;
  ret (T_DECL d specs (T_POINTER (T_ARRAY x z))).

(** [argv[i] = address] for the arguments from number [i] on, /repo/src/cscript.c:92-103. *)
Fixpoint argv_assigns (i : Z) (argv : list Z) : M (list tree) :=
  match argv with
  | [] => ret []
  | p :: argv =>
      a <- new_node ;;
      tick E ;;
      z <- get_integer i ;;
      x <- get_identifier "argv" ;;
      v <- get_addr p ;;
      l <- argv_assigns (i + 1) argv ;;
      ret (T_ASSIGN a (T_ARRAY_ACCESS x z) v :: l)
  end.

(** [create_arguments], /repo/src/cscript.c:59-106; [argv] are the addresses of the strings and argc
    is their number.  The loop counter is an int, so this is right for argc below 2^31. *)
Definition create_arguments (n : nat) (argv : list Z) : M unit :=
  let argc := Z.of_nat (List.length argv) in
  c <- argc_decl argc ;;
  tick E ;;
  v <- argv_decl argc ;;
  l <- argv_assigns 0 argv ;;
  evaluate E n (CHAIN_HEAD (c :: v :: l)).

(** ** What the script contains *)

(** The node [fn] after [for_each_tree(fn, tDECL_DECLS(i)) break;], /repo/src/cscript.c:147-148: the first
    element of a chain; [pos] of a loop over a single node is the node itself (list.h:37-40). *)
Definition first_declarator (decls : tree) : tree :=
  match decls with
  | CHAIN_HEAD (d :: _) => d
  | _ => decls
  end.

(** The test of /repo/src/cscript.c:150-158: the parameters of a declarator of main. *)
Definition main_args (i : tree) : option tree :=
  match i with
  | T_DECL _ _ decls =>
      match first_declarator decls with
      | T_FN (T_IDENTIFIER x) args _ _ => if String.eqb x "main" then Some args else None
      | _ => None
      end
  | _ => None
  end.

(** The loop of /repo/src/cscript.c:145-172: num_main_args, has_main, has_non_decls.  The number of
    parameters is the sum over all declarators of main; it does not reach 2^31. *)
Fixpoint scan (l : list tree) : Z * bool * bool :=
  match l with
  | [] => (0, false, false)
  | i :: l =>
      let '(n, has_main, has_non_decls) := scan l in
      let decl := match i with T_DECL _ _ _ => true | _ => false end in
      match main_args i with
      | Some args => (Z.of_nat (List.length (chain_elems args)) + n, true, has_non_decls)
      | None => (n, has_main, has_non_decls || negb decl)
      end
  end.

(** [add_call_to_main], /repo/src/cscript.c:108-125: the call.  The message for more than two
    parameters is not modelled; it does not end the program. *)
Definition main_call (num_args : Z) : M tree :=
  tick E ;;
  f <- get_identifier "main" ;;
  args <- (if 0 <? num_args
           then c <- get_identifier "argc" ;;
                h <- tree_chain_head c ;;
                if 1 <? num_args
                then v <- get_identifier "argv" ;;
                     ret (CHAIN_HEAD (chain_elems h ++ [v]))
                else ret h
           else ret NULL) ;;
  ret (T_FN_CALL f args).

(** [__evaluate_cscript], /repo/src/cscript.c:127-186, for the chain of the items [l]. *)
Definition evaluate_items (n : nat) (l : list tree) (argv : list Z) : M unit :=
  let '(num_args, has_main, has_non_decls) := scan l in
  if has_main && has_non_decls then exit_ 1 else
  (create_arguments n argv ;;
   calls <- (if has_main then c <- main_call num_args ;; ret [c] else ret []) ;;
   evaluate E n (CHAIN_HEAD (l ++ calls))).

(** What parse_cscript (/repo/src/cscript.c:28-57) does with the file: the syntax error callback
    exits with status 1 (lines 19-25), the function fails otherwise, or the items have been parsed. *)
Inductive parsed : Set :=
| Syntax_error
| Not_parsed
| Items (l : list tree).

(** [evaluate_cscript], /repo/src/cscript.c:193-219; [dump] is flag_print_ast.  The dump itself is
    not modelled. *)
Definition evaluate_cscript (n : nat) (p : parsed) (dump : bool) (argv : list Z) : M Z :=
  match p with
  | Syntax_error => exit_ 1
  | Not_parsed => ret 254
  | Items l => if dump then exit_ 0 else evaluate_items n l argv ;; ret 0
  end.

(** [main] with a script, /repo/src/main.c:144-160.  typename_init only concerns the parser; for parse_args
    (libraries, options) see Main.v. *)
Definition run_script (n : nat) (p : parsed) (dump : bool) (argv : list Z) : M Z :=
  eval_init E ;; evaluate_cscript n p dump argv.

End Script.

(** The exit status that the parent process sees: the result of main (/repo/src/main.c:158) or the argument
    of exit modulo 256; eval_die exits with EXIT_FAILURE (/repo/src/evaluate.c:118).  None: the process does
    not end, is killed by a signal, or its behaviour is undefined. *)
Definition status (r : res Z) : option Z :=
  match r with
  | Ok n _ | Exit n _ => Some (n mod 256)
  | Die _ => Some 1
  | _ => None
  end.
