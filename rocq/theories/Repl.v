(** Model of parts of src/repl.c (completion, and the line taken from the preprocessor's output), of [find_global_identifiers] in
    src/evaluate.c and of the command made in src/preprocess.c. *)
From Coq Require Import ZArith List Bool Ascii.
From Verif Require Import CInt ListC.
Import ListNotations.
Local Open Scope Z_scope.
Local Open Scope list_scope.

(** * Member access (src/repl.c:48-109) *)

(** A C string (the [char *] of src/repl.c:48 and elsewhere) is the list of its characters before the NUL. *)
Definition text := list ascii.

(** Whether a string begins with another, for [strstr] below. /repo/src/repl.c:60, 94. *)
Definition starts (needle s : text) : bool := (length needle <=? length s)%nat && forallb (fun p => Ascii.eqb (fst p) (snd p)) (combine needle s).
(** [strstr] of the C library, as a truth value: src/repl.c:60, 94. *)
Fixpoint strstr (s needle : text) : bool :=
  starts needle s || match s with [] => false | _ :: s => strstr s needle end.
(** The string at [&text[i]] for i up to its length, src/repl.c:60, 90, 94, 101. *)
Definition from (i : nat) (s : text) : text := skipn i s.
(** [text[i] == '.'], src/repl.c:57, 83; at the end of the string the NUL is read. *)
Definition is_dot (s : text) (i : nat) : bool := match nth_error s i with Some c => Ascii.eqb c "."%char | None => false end.
(** The string of src/repl.c:60, 94, 98. *)
Definition arrow : text := ["-"; ">"]%char.

(** The loop of [is_compound_access], src/repl.c:55-62. *)
Fixpoint compound_loop (s : text) (i : nat) : bool :=
  match i with
  | O => false
  | S i' => if is_dot s i then true else if strstr (from i s) arrow then true else compound_loop s i'
  end.
(** [is_compound_access], src/repl.c:48-65. *)
Definition is_compound_access (s : text) : bool :=
  if (length s <? 2)%nat then false else compound_loop s (length s - 1).

(** [struct completion_comp_access], src/repl.c:67-73; None: NULL. *)
Record comp_access := mkaccess { obj_expr : option text; access_operator : option text; member_prefix : option text; needs_deref : bool }.
(** The loop of [split_compound_access_text], src/repl.c:82-103.  [obj_expr[i] = '\0'] in the copy is [firstn i]. *)
Fixpoint split_loop (s : text) (i : nat) (a : comp_access) : comp_access :=
  match i with
  | O => a
  | S i' =>
      if is_dot s i then mkaccess (Some (firstn i s)) (Some ["."%char]) (Some (from (i + 1) s)) false
      else if strstr (from i s) arrow then split_loop s i' (mkaccess (Some (firstn i s)) (Some arrow) (Some (from (i + 2) s)) true)
      else split_loop s i' a
  end.
(** [split_compound_access_text], src/repl.c:75-109; None: it returns 0. *)
Definition split_compound_access_text (s : text) : option comp_access :=
  let a := split_loop s (length s) (mkaccess None None None false) in
  match obj_expr a with None => None | Some _ => Some a end.

(** * The line taken from the preprocessor's output (src/repl.c:339-370) *)

(** The file opened by [run_cpp], src/repl.c:343: its bytes and the position. *)
Record file := mkfile { content : text; pos : Z }.
(** src/repl.c:347, 350, 359. *)
Inductive seek := SEEK_CUR | SEEK_END.
(** [fseek], src/repl.c:347, 350, 359; None: it returns -1 since the position would be negative. *)
Definition fseek (f : file) (off : Z) (w : seek) : option file :=
  let p := (match w with SEEK_CUR => pos f | SEEK_END => Z.of_nat (length (content f)) end) + off in
  if p <? 0 then None else Some (mkfile (content f) p).
(** [fgetc], src/repl.c:355, 367: None at the end of the file. *)
Definition fgetc (f : file) : option ascii * file :=
  match nth_error (content f) (Z.to_nat (pos f)) with
  | Some c => (Some c, mkfile (content f) (pos f + 1))
  | None => (None, f)
  end.
(** [ftell], src/repl.c:357. *)
Definition ftell (f : file) : Z := pos f.
(** The byte stored in a [char] by [c = fgetc(output)]; EOF is -1, the char 255: src/repl.c:355, 367. *)
Definition to_char (c : option ascii) : ascii := match c with Some c => c | None => "255"%char end.
(** src/repl.c:357. *)
Definition newline : ascii := "010"%char.

(** What [run_cpp_on_line] (src/repl.c:339-370) does: returns a string, or ends the program at line 352 or 361. *)
Inductive line := Line (s : text) | Exit1 | Fuel.
(** The loop of src/repl.c:349-357; the fuel bounds the number of rounds. *)
Fixpoint back (fuel : nat) (f : file) (line_len : nat) : option (option (file * nat)) :=
  match fuel with
  | O => None
  | S fuel =>
      match fseek f (-2) SEEK_CUR with
      | None => Some None
      | Some f =>
          let (c, f) := fgetc f in
          let line_len := S line_len in
          if negb (Ascii.eqb (to_char c) newline) && negb (ftell f - 1 =? 0) then back fuel f line_len else Some (Some (f, line_len))
      end
  end.
(** The loop of src/repl.c:366-367. *)
Fixpoint read_line (f : file) (n : nat) : text :=
  match n with O => [] | S n => let (c, f) := fgetc f in to_char c :: read_line f n end.
(** [run_cpp_on_line], src/repl.c:339-370, from the output of the preprocessor.  The array is NUL-terminated by the calloc.
    Bytes in place of characters; a NUL in the output would end the string earlier. *)
Definition run_cpp_on_line (fuel : nat) (output : text) : line :=
  match fseek (mkfile output 0) 0 SEEK_END with
  | None => Exit1
  | Some f =>
      match back fuel f 0 with
      | None => Fuel
      | Some None => Exit1
      | Some (Some (f, line_len)) =>
          match fseek f (-1) SEEK_CUR with
          | None => Exit1
          | Some f => Line (read_line f line_len)
          end
      end
  end.

(** * Completion candidates through a pipe (src/repl.c:225-273) *)

(** The bytes of a [size_t], and back: src/repl.c:233, 242, 253, 263. *)
Definition size_bytes (n : Z) : list Z := le_bytes 8 n.
(** src/repl.c:253, 263. *)
Fixpoint le_value (l : list Z) : Z := match l with [] => 0 | b :: l => b + 256 * le_value l end.

(** [send_matches], src/repl.c:225-245: the writes done.  [None]: matches is NULL.  A string is the list of its bytes. *)
Definition send_matches (matches : option (list (list Z))) : list (list Z) :=
  match matches with
  | None => [size_bytes 0]
  | Some l => size_bytes (Z.of_nat (length l)) :: flat_map (fun s => [size_bytes (Z.of_nat (length s) + 1); s ++ [0]]) l
  end.

(** The pipe: the bytes that can be read now, and the pieces that are still to be written.  At most PIPE_BUF = 4096 bytes are written as
    one piece; longer writes may arrive in several pieces (pipe(7)).  The writer goes on at any moment: [sched] gives the number of further
    pieces written before each read, and a read waits for a byte if there is still something to come.
    Simplification: a piece that does not fit in the pipe is written once there is room; all schedules are considered.
    /repo/src/repl.c:225-268. *)
Record pipe := mkpipe { avail : list Z; pending : list (list Z); reads : nat }.
(** [read], src/repl.c:253, 263, 267: the bytes read, and the pipe. *)
Definition read (sched : nat -> nat) (p : pipe) (n : nat) : list Z * pipe :=
  let k := max (sched (reads p)) (match avail p with [] => 1 | _ => 0 end) in
  let a := avail p ++ concat (firstn k (pending p)) in
  (firstn n a, mkpipe (skipn n a) (skipn k (pending p)) (S (reads p))).
(** [read] into an array of n bytes with the given content before: the content after. /repo/src/repl.c:253, 263, 267. *)
Definition read_into (sched : nat -> nat) (garbage : nat -> list Z) (p : pipe) (n : nat) : list Z * pipe :=
  let (got, p') := read sched p n in
  (firstn n (got ++ skipn (length got) (garbage (reads p))), p').
(** The loop of [recieve_matches], src/repl.c:260-268.  The array allocated with [malloc(match_len)] has match_len bytes; allocations
    succeed.  The counter is an [int], so the model is only right for fewer than 2^31 strings. *)
Fixpoint recieve_loop (sched : nat -> nat) (garbage : nat -> list Z) (p : pipe) (n : nat) : list (list Z) :=
  match n with
  | O => []
  | S n =>
      let (b, p) := read_into sched garbage p 8 in
      let (s, p) := read_into sched garbage p (Z.to_nat (le_value b)) in
      s :: recieve_loop sched garbage p n
  end.
(** [recieve_matches], src/repl.c:247-273: None: it returns NULL; otherwise the arrays of bytes. *)
Definition recieve_matches (sched : nat -> nat) (garbage : nat -> list Z) (pieces : list (list Z)) : option (list (list Z)) :=
  let (b, p) := read_into sched garbage (mkpipe [] pieces 0) 8 in
  if le_value b =? 0 then None else Some (recieve_loop sched garbage p (Z.to_nat (le_value b))).

(** * Identifier completion (src/repl.c:136-192, src/evaluate.c:211-226) *)

(** [strncmp(a, b, n)] of the C library: zero or not.  src/repl.c:143. *)
Fixpoint strncmp_zero (a b : text) (n : nat) {struct n} : bool :=
  match n with
  | O => true
  | S n => match a, b with
           | [], [] => true
           | x :: a, y :: b => if Ascii.eqb x y then strncmp_zero a b n else false
           | _, _ => false
           end
  end.

(** The heap gives the chains (theories/ListC.v); [left m] is tEMAP_LEFT of a mapping and [str i] tID_STR of an identifier (src/c.lang:45, 244).  A tree is the
    address of its chain field. *)
Record names := mknames { left : Z -> Z; str : Z -> text }.
(** [match_identifiers_for_idmap], src/repl.c:136-146; None: out of fuel.  The traversal goes on in the changed heap. *)
Fixpoint match_loop (fuel : nat) (nm : names) (h : heap) (chain i idmap : Z) (prefix : text) : option heap :=
  if i =? idmap then Some h else
  match fuel with
  | O => None
  | S fuel =>
      let id := left nm i in
      let h := if strncmp_zero (str nm id) prefix (length prefix) then tree_chain h id chain else h in
      match_loop fuel nm h chain (nxt h i) idmap prefix
  end.
(** The same from the first mapping. /repo/src/evaluate.c:211-226. *)
Definition match_identifiers_for_idmap (fuel : nat) (nm : names) (h : heap) (chain idmap : Z) (prefix : text) : option heap :=
  match_loop fuel nm h chain (nxt h idmap) idmap prefix.
(** [find_global_identifiers], src/evaluate.c:211-226: [ctxs] are the id maps of cur_ctx and its parents, [include] that of include_ctx;
    [chain] is the new CHAIN_HEAD made by tree_make (src/tree.c:5-11). *)
Fixpoint ctx_loop (fuel : nat) (nm : names) (h : heap) (chain : Z) (ctxs : list Z) (prefix : text) : option heap :=
  match ctxs with
  | [] => Some h
  | m :: ctxs => match match_identifiers_for_idmap fuel nm h chain m prefix with Some h => ctx_loop fuel nm h chain ctxs prefix | None => None end
  end.
(** src/evaluate.c:211-226. *)
Definition find_global_identifiers (fuel : nat) (nm : names) (h : heap) (chain : Z) (ctxs : list Z) (include : option Z) (prefix : text) : option heap :=
  match ctx_loop fuel nm (INIT_LIST h chain) chain ctxs prefix with
  | None => None
  | Some h => match include with Some m => match_identifiers_for_idmap fuel nm h chain m prefix | None => Some h end
  end.
(** [create_matches_array], src/repl.c:148-192: the outer None is out of fuel, the inner one NULL. *)
Definition create_matches_array (fuel : nat) (nm : names) (h : heap) (original_text : text) (chain : Z) : option (option (list text)) :=
  match list_for_each fuel h chain with
  | None => None
  | Some [] => Some None
  | Some [i] => Some (Some [str nm i])
  | Some l => Some (Some (original_text :: map (str nm) l))
  end.
(** [do_identifier_completion], src/repl.c:218-223, with the heap after it. *)
Definition do_identifier_completion (fuel : nat) (nm : names) (h : heap) (chain : Z) (ctxs : list Z) (include : option Z) (t : text) :
    option (option (list text) * heap) :=
  match find_global_identifiers fuel nm h chain ctxs include t with
  | None => None
  | Some h => match create_matches_array fuel nm h t chain with Some r => Some (r, h) | None => None end
  end.

(** * The preprocessor's command (src/preprocess.c:12-113) *)

(** An array of bytes allocated with malloc, src/preprocess.c:60, 68; None: not written yet. *)
Definition array := list (option ascii).
(** src/preprocess.c:61. *)
Definition NUL : ascii := "000"%char.
(** Position of the first NUL, as found by strcat; None: a byte that was not written is read, or none is found in the array.
    /repo/src/preprocess.c:64-65. *)
Fixpoint find_nul (a : array) : option nat :=
  match a with
  | Some c :: a => if Ascii.eqb c NUL then Some O else option_map S (find_nul a)
  | _ => None
  end.
(** [a[i] = c], src/preprocess.c:61 and in strcat; None: outside the array. *)
Fixpoint put (a : array) (i : nat) (c : ascii) : option array :=
  match a, i with
  | [], _ => None
  | _ :: a, O => Some (Some c :: a)
  | x :: a, S i => option_map (cons x) (put a i c)
  end.
(** Successive bytes written by strcat. /repo/src/preprocess.c:64-65. *)
Fixpoint puts (a : array) (i : nat) (s : text) : option array :=
  match s with [] => Some a | c :: s => match put a i c with Some a => puts a (S i) s | None => None end end.
(** [strcat] of the C library, src/preprocess.c:64-65; None: undefined behaviour. *)
Definition strcat (a : array) (s : text) : option array :=
  match find_nul a with Some i => puts a i (s ++ [NUL]) | None => None end.

(** src/preprocess.c:64. *)
Definition str_I : text := [" "; "-"; "I"; " "]%char.
(** [include_dirs], src/preprocess.c:10: None is NULL.  The chain is the list of its strings (see C33). *)
Definition dirs := option (list text).
(** [preprocessor_add_include_dir], src/preprocess.c:100-112. *)
Definition preprocessor_add_include_dir (d : dirs) (dir : text) : dirs :=
  Some (match d with Some l => l | None => [] end ++ [dir]).
(** [include_len], src/preprocess.c:55-58, a size_t. *)
Definition include_len (l : list text) : Z := fold_left (fun n d => u64 (n + u64 (Z.of_nat (length d) + 4))) l 0.
(** The loop of src/preprocess.c:63-66. *)
Fixpoint strcat_loop (a : array) (l : list text) : option array :=
  match l with
  | [] => Some a
  | d :: l => match strcat a str_I with
              | Some a => match strcat a d with Some a => strcat_loop a l | None => None end
              | None => None
              end
  end.
(** [include_dir_opts], src/preprocess.c:54-70; None: undefined behaviour.  Allocations succeed. *)
Definition include_dir_opts (d : dirs) : option array :=
  match d with
  | Some l => match put (repeat None (Z.to_nat (u64 (include_len l + 1)))) 0 NUL with Some a => strcat_loop a l | None => None end
  | None => put (repeat None 1) 0 NUL
  end.
(** The file given to the preprocessor, src/preprocess.c:43-51. *)
Definition cpp_file (include_chain : list text) (line : option text) : text :=
  flat_map (fun i => i ++ [newline]) include_chain ++ match line with Some l => l | None => [] end.
