(** State and outcomes of the evaluator model.

    Static variables of /repo/src/evaluate.c:23-35 ([cur_ctx], [include_ctx],
    [include_chain]), the E_CTX nodes (c.lang:230-235), the heap, and the
    contents of syntax nodes the evaluator has overwritten. *)
From Coq Require Import ZArith List String Bool.
From Verif Require Import CInt Tree.
Import ListNotations.
Local Open Scope Z_scope.

(** An E_CTX node, /repo/src/c.lang:230-235.  The parent pointer is implicit in
    the position on the stack; [c_id] stands for the address of the node. *)
Record ctx : Type := mkctx {
  c_id : Z;
  c_name : string;
  c_idmap : list (string * tree);
  c_structs : list (string * tree);
  c_unions : list (string * tree);
  c_allocs : list Z;
  c_retval : tree;
  c_break : bool;
  c_isfn : bool
}.

(** A heap block obtained from malloc (or memory belonging to a loaded library).
    [b_tracked] is set once an E_ALLOC node refers to it
    (/repo/src/evaluate.c:85-94); only such blocks are freed by the collector
    (/repo/src/gc.c:86-116). *)
Record block : Type := mkblock { b_base : Z; b_size : Z; b_tracked : bool }.

(** A member declaration of an expanded compound: specifiers, declarator,
    offset (/repo/src/c.lang:170-172, filled by evaluate.c:2098-2121, 2253);
    the label is the identity of the new T_DECL node. *)
Record mdecl : Type := mkmdecl { m_lbl : Z; m_specs : tree; m_decl : tree; m_off : Z }.

(** Contents of a T_DECL_COMPOUND node, /repo/src/c.lang:177-182.  [cd_decls] is
    the chain as parsed, [cd_mem] the chain after expansion; [cd_exp] is the flag
    EXPANDED and [cd_split] says which of the two chains is current. *)
Record comp : Type := mkcomp {
  cd_type : compound_type;
  cd_id : tree;
  cd_decls : tree;
  cd_split : bool;
  cd_mem : list mdecl;
  cd_sz : Z;
  cd_exp : bool
}.

(** A closure made by get_entry_point_for_fn, /repo/src/function-call.c:160-215:
    code address, function, argument types. *)
Record closure : Type := mkclosure { cl_addr : Z; cl_fn : tree; cl_types : list tree }.

(** An argument as handed to libffi: scalar type (None for a pointer) with the
    value's bits, or the characters of a string constant
    (/repo/src/function-call.c:67-108). *)
Inductive arg : Type :=
| AVal (ty : option ctype) (bits : Z)
| AStr (s : string).

(** Calls made to code outside the interpreter. Made by ffi_call, /repo/src/function-call.c:118. *)
Inductive event : Type := EvCall (addr : Z) (args : list arg).

(** The evaluator state.
    The static variables of /repo/src/evaluate.c:23-35, the heap, and what the evaluator has written into syntax nodes
    (/repo/src/evaluate.c:2071 tRET_EXP, 813 tASSIGN_LHS, 1094-1100 static declarations). *)
Record state : Type := mkstate {
  mem : Z -> Z;                          (* memory contents *)
  blocks : list block;                   (* allocated memory *)
  stack : list ctx;                      (* cur_ctx and its parents *)
  incl : option ctx;                     (* include_ctx *)
  includes : list string;                (* include_chain *)
  ov_ret : list (Z * tree);              (* overwritten tRET_EXP *)
  ov_asn : list (Z * tree);              (* overwritten tASSIGN_LHS *)
  statics : list (Z * (list (string * tree) * list Z)); (* T_DECL nodes turned into E_CTX *)
  comps : list (Z * comp);               (* current contents of compound declarations *)
  closures : list closure;
  fresh : Z;                             (* supply of node identities *)
  trace : list event;                    (* external calls, latest first *)
  ticks : Z;                             (* node allocations so far *)
  breaks : Z                             (* break statements executed so far (ghost) *)
}.

(** Outcomes.  [Jmp i]: a longjmp to the context with identity [i] is in flight
    (/repo/src/evaluate.c:2742).  [Die]: error message and exit status 1.  [Abort]:
    failed assert or GMP abort.  [Exit n]: exit(n).  [UB]: undefined behaviour in
    the interpreter.  [Fuel]: the model's recursion bound was reached.
    [NoMemory n s]: malloc failed, or broke its contract, when asked for [n] bytes in state
    [s]; what follows is not modelled.  [Unmodelled s]: external code enters a function of the
    interpreter with a string argument in state [s]; also not modelled. *)
Inductive res (A : Type) : Type :=
| Ok (a : A) (s : state)
| Jmp (i : Z) (s : state)
| Die (s : state)
| Abort (s : state)
| Exit (n : Z) (s : state)
| UB
| Fuel
| NoMemory (n : Z) (s : state)
| Unmodelled (s : state).
Arguments Ok {A}. Arguments Jmp {A}. Arguments Die {A}. Arguments Abort {A}.
Arguments Exit {A}. Arguments UB {A}. Arguments Fuel {A}. Arguments NoMemory {A}.
Arguments Unmodelled {A}.

(** Steps an external function may take.
    The code called at /repo/src/function-call.c:118 is not part of the repository; this is what it may do. *)
Inductive eaction : Type :=
| EDone (bits : Z)                 (* return; the value's bits *)
| EWrite (a : Z) (bytes : list Z)  (* store to memory *)
| EMalloc (n : Z)                  (* allocate *)
| EFree (a : Z)                    (* release memory it allocated *)
| ECall (a : Z) (args : list Z)    (* call a function pointer *)
| EExit (n : Z)                    (* exit the process *)
| EAbort.                          (* abnormal termination *)

(** The world outside the interpreter.  Theorems quantify over it.
    malloc (/repo/src/evaluate.c:296, 724, 734, 858), the collector's choice (/repo/src/gc.c:11-167), dlsym (/repo/src/evaluate.c:514,
    919, 997), code called through libffi (/repo/src/function-call.c:118), the preprocessor (/repo/src/evaluate.c:2549-2596), the user
    (/repo/src/repl.c), floating-point arithmetic. *)
Record env : Type := mkenv {
  e_malloc : state -> Z -> Z;          (* address malloc returns *)
  e_gc : state -> list Z;              (* blocks a collection at this point would free *)
  e_gc_cl : state -> list Z;           (* closures freed at this point *)
  e_rooted : Z -> bool;                (* static declarations reachable from the program *)
  e_dlsym : string -> Z;               (* dlsym; 0 is "not found" *)
  e_alloca : Z;                        (* address of __evaluator_alloca *)
  e_atexit : Z;                        (* address of atexit *)
  e_at_quick_exit : Z;                 (* address of at_quick_exit *)
  e_ext : Z -> list arg -> state -> nat -> eaction;  (* behaviour of external code *)
  e_include : list string -> option tree;  (* parse of the preprocessed headers *)
  e_repl : state -> list tree;         (* lines typed at a nested REPL *)
  e_fp_lit : Z -> nat -> Z;            (* bits of mpf_get_d of a constant *)
  e_fp_cast : ctype -> ctype -> Z -> Z;  (* conversions involving floating types, on bits *)
  e_fp_add : ctype -> Z -> Z;          (* x + 1 on bits *)
  e_fp_sub : ctype -> Z -> Z           (* x - 1 on bits *)
}.

(** The outcome monad.
    A C function that works on the static variables of /repo/src/evaluate.c:23-35 and may not return. *)
Definition M (A : Type) : Type := state -> res A.

(** Returning from a C function; no code of its own in /repo/src/evaluate.c. *)
Definition ret {A} (a : A) : M A := fun s => Ok a s.

(** One thing after the other; whatever does not return (/repo/src/evaluate.c:118, 2742) leaves out the rest. *)
Definition bind {A B} (m : M A) (f : A -> M B) : M B := fun s =>
  match m s with
  | Ok a s' => f a s'
  | Jmp i s' => Jmp i s'
  | Die s' => Die s'
  | Abort s' => Abort s'
  | Exit n s' => Exit n s'
  | UB => UB
  | Fuel => Fuel
  | NoMemory n s' => NoMemory n s'
  | Unmodelled s' => Unmodelled s'
  end.

Declare Scope m_scope.
Delimit Scope m_scope with m.
Notation "x <- m ;; k" := (bind m (fun x => k)) (at level 61, m at next level, right associativity) : m_scope.
Notation "' p <- m ;; k" := (bind m (fun p => k)) (at level 61, p pattern, m at next level, right associativity) : m_scope.
Notation "m ;; k" := (bind m (fun _ => k)) (at level 61, right associativity) : m_scope.
Local Open Scope m_scope.

(** [eval_die] and [exit(EXIT_FAILURE)], /repo/src/evaluate.c:107-119.  Messages are
    not modelled. *)
Definition die {A} : M A := fun s => Die s.
(** Failed assert(3) or GMP's abort. E.g. /repo/src/evaluate.c:201, 269, 596. *)
Definition abort {A} : M A := fun s => Abort s.
(** exit(n). E.g. /repo/src/cscript.c:190. *)
Definition exit_ {A} (n : Z) : M A := fun s => Exit n s.
(** Undefined behaviour: NULL dereference, access of a field of another node type, access
    to unallocated memory, longjmp to a dead frame. Possible throughout /repo/src/evaluate.c. *)
Definition ub {A} : M A := fun _ => UB.
(** The bound of the model on recursion; no counterpart in /repo/src. *)
Definition out_of_fuel {A} : M A := fun _ => Fuel.
(** A closure entered with a string (/repo/src/function-call.c:126-158); see [res]. *)
Definition unmodelled {A} : M A := fun s => Unmodelled s.
(** /repo/src/evaluate.c:2742. *)
Definition longjmp {A} (i : Z) : M A := fun s => Jmp i s.

(** Reading the static variables of /repo/src/evaluate.c:23-35. *)
Definition get : M state := fun s => Ok s s.
(** The same for a part of them, /repo/src/evaluate.c:23-35. *)
Definition gets {A} (f : state -> A) : M A := fun s => Ok (f s) s.

(** Field updates. Assignment to [mem]; see [state] (/repo/src/evaluate.c:23-35). *)
Definition set_mem f s := mkstate (f (mem s)) (blocks s) (stack s) (incl s) (includes s) (ov_ret s)
  (ov_asn s) (statics s) (comps s) (closures s) (fresh s) (trace s) (ticks s) (breaks s).
(** Assignment to [blocks]; see [state] (/repo/src/evaluate.c:23-35). *)
Definition set_blocks f s := mkstate (mem s) (f (blocks s)) (stack s) (incl s) (includes s) (ov_ret s)
  (ov_asn s) (statics s) (comps s) (closures s) (fresh s) (trace s) (ticks s) (breaks s).
(** Assignment to [stack]; see [state] (/repo/src/evaluate.c:23-35). *)
Definition set_stack f s := mkstate (mem s) (blocks s) (f (stack s)) (incl s) (includes s) (ov_ret s)
  (ov_asn s) (statics s) (comps s) (closures s) (fresh s) (trace s) (ticks s) (breaks s).
(** Assignment to [incl]; see [state] (/repo/src/evaluate.c:23-35). *)
Definition set_incl v s := mkstate (mem s) (blocks s) (stack s) v (includes s) (ov_ret s)
  (ov_asn s) (statics s) (comps s) (closures s) (fresh s) (trace s) (ticks s) (breaks s).
(** Assignment to [includes]; see [state] (/repo/src/evaluate.c:23-35). *)
Definition set_includes f s := mkstate (mem s) (blocks s) (stack s) (incl s) (f (includes s)) (ov_ret s)
  (ov_asn s) (statics s) (comps s) (closures s) (fresh s) (trace s) (ticks s) (breaks s).
(** Assignment to [ov_ret]; see [state] (/repo/src/evaluate.c:23-35). *)
Definition set_ov_ret f s := mkstate (mem s) (blocks s) (stack s) (incl s) (includes s) (f (ov_ret s))
  (ov_asn s) (statics s) (comps s) (closures s) (fresh s) (trace s) (ticks s) (breaks s).
(** Assignment to [ov_asn]; see [state] (/repo/src/evaluate.c:23-35). *)
Definition set_ov_asn f s := mkstate (mem s) (blocks s) (stack s) (incl s) (includes s) (ov_ret s)
  (f (ov_asn s)) (statics s) (comps s) (closures s) (fresh s) (trace s) (ticks s) (breaks s).
(** Assignment to [statics]; see [state] (/repo/src/evaluate.c:23-35). *)
Definition set_statics f s := mkstate (mem s) (blocks s) (stack s) (incl s) (includes s) (ov_ret s)
  (ov_asn s) (f (statics s)) (comps s) (closures s) (fresh s) (trace s) (ticks s) (breaks s).
(** Assignment to [comps]; see [state] (/repo/src/evaluate.c:23-35). *)
Definition set_comps f s := mkstate (mem s) (blocks s) (stack s) (incl s) (includes s) (ov_ret s)
  (ov_asn s) (statics s) (f (comps s)) (closures s) (fresh s) (trace s) (ticks s) (breaks s).
(** Assignment to [closures]; see [state] (/repo/src/evaluate.c:23-35). *)
Definition set_closures f s := mkstate (mem s) (blocks s) (stack s) (incl s) (includes s) (ov_ret s)
  (ov_asn s) (statics s) (comps s) (f (closures s)) (fresh s) (trace s) (ticks s) (breaks s).
(** Assignment to [fresh]; see [state] (/repo/src/evaluate.c:23-35). *)
Definition set_fresh f s := mkstate (mem s) (blocks s) (stack s) (incl s) (includes s) (ov_ret s)
  (ov_asn s) (statics s) (comps s) (closures s) (f (fresh s)) (trace s) (ticks s) (breaks s).
(** Assignment to [trace]; see [state] (/repo/src/evaluate.c:23-35). *)
Definition set_trace f s := mkstate (mem s) (blocks s) (stack s) (incl s) (includes s) (ov_ret s)
  (ov_asn s) (statics s) (comps s) (closures s) (fresh s) (f (trace s)) (ticks s) (breaks s).
(** Assignment to [ticks]; see [state] (/repo/src/evaluate.c:23-35). *)
Definition set_ticks f s := mkstate (mem s) (blocks s) (stack s) (incl s) (includes s) (ov_ret s)
  (ov_asn s) (statics s) (comps s) (closures s) (fresh s) (trace s) (f (ticks s)) (breaks s).
(** Assignment to [breaks]; see [state] (/repo/src/evaluate.c:23-35). *)
Definition set_breaks f s := mkstate (mem s) (blocks s) (stack s) (incl s) (includes s) (ov_ret s)
  (ov_asn s) (statics s) (comps s) (closures s) (fresh s) (trace s) (ticks s) (f (breaks s)).

(** Writing the static variables of /repo/src/evaluate.c:23-35. *)
Definition modify (f : state -> state) : M unit := fun s => Ok tt (f s).

(** Finite maps keyed by labels; the latest entry wins. A node's field in /repo/src is found by its address. *)
Fixpoint zfind {A} (k : Z) (l : list (Z * A)) : option A :=
  match l with
  | [] => None
  | (k', v) :: l => if k =? k' then Some v else zfind k l
  end.

(** Membership in a list of addresses. For the marking of /repo/src/gc.c:11-84. *)
Definition zmem (x : Z) (l : list Z) : bool := existsb (Z.eqb x) l.

(** A new node identity. The address of a node made by tree_make, /repo/src/tree.c:5-11. *)
Definition fresh_id : M Z := fun s => Ok (fresh s) (set_fresh (fun n => n + 1) s).

(** The range [a, a+n) lies inside an allocated block. When an access in /repo/src/evaluate.c is defined. *)
Definition in_block (a n : Z) (b : block) : bool :=
  (b_base b <=? a) && (a + n <=? b_base b + b_size b).
(** The same for some allocated block; no counterpart in /repo/src. *)
Definition valid (s : state) (a n : Z) : bool := existsb (in_block a n) (blocks s).

(** A read of [n] bytes through a pointer. E.g. /repo/src/evaluate.c:317. *)
Definition load (a n : Z) : M Z := fun s =>
  if valid s a n then Ok (le_load (mem s) a (Z.to_nat n)) s else UB.
(** A write through a pointer. E.g. /repo/src/evaluate.c:1162-1168. *)
Definition store (a : Z) (bytes : list Z) : M unit := fun s =>
  if valid s a (Z.of_nat (List.length bytes))
  then Ok tt (set_mem (fun m => store_bytes m a bytes) s) else UB.

(** Two blocks do not overlap (a block of size 0 still has an address of its own).
    Part of the contract of malloc, called at /repo/src/evaluate.c:296, 724, 734, 858. *)
Definition disjoint_blocks (a n : Z) (b : block) : bool :=
  (a + Z.max n 1 <=? b_base b) || (b_base b + Z.max (b_size b) 1 <=? a).

Section Env.
Variable E : env.

(** malloc(3).  The environment chooses the address; the contract of malloc is that it
    is not null, is below 2^63 and does not overlap allocated memory.  An environment
    that breaks it (also: failure, NULL) leads to [NoMemory]. Called at /repo/src/evaluate.c:296, 724, 734, 858. *)
Definition malloc (n : Z) : M Z := fun s =>
  let a := e_malloc E s n in
  if (0 <? a) && (a + Z.max n 1 <=? 2 ^ 63) && forallb (disjoint_blocks a n) (blocks s)
  then Ok a (set_blocks (fun bs => mkblock a n false :: bs) s)
  else NoMemory n s.

(** Allocations kept alive by the GC roots [cur_ctx] (with its parents), [include_ctx]
    (/repo/src/evaluate.c:23-29) and by static declarations that are part of the loaded
    program (cscript_parse_head, /repo/src/cscript.c; function bodies in scope). *)
Definition roots (s : state) : list Z :=
  flat_map c_allocs (stack s) ++
  match incl s with Some c => c_allocs c | None => [] end ++
  flat_map (fun e => if e_rooted E (fst e) then snd (snd e) else []) (statics s).

(** The block is freed by a collection at this point: the environment says so, it is
    owned by an E_ALLOC node, and no root reaches that node. The sweep of /repo/src/gc.c:86-128. *)
Definition collected (s : state) (b : block) : bool :=
  b_tracked b && zmem (b_base b) (e_gc E s) && negb (zmem (b_base b) (roots s)).

(** [tree_make]/[alloc_tree], /repo/src/tree.c:5-11, gc.c:202-208: allocating a node may
    run a collection.  Over-approximation: any tracked block not reachable from the roots
    may be freed at any such point; the real collector runs at every 2002nd allocation,
    and not while inhibited.  Closures are not reachable from any root
    (function-call.c:160-215).  Consecutive node allocations are merged into one. *)
Definition tick : M unit := fun s =>
  Ok tt (set_ticks (fun n => n + 1)
        (set_closures (filter (fun c => negb (zmem (cl_addr c) (e_gc_cl E s))))
        (set_blocks (filter (fun b => negb (collected s b))) s))).

End Env.

(** Update of cur_ctx; there always is one after eval_init. /repo/src/evaluate.c:23, 85-94. *)
Definition upd_top (f : ctx -> ctx) : M unit := fun s =>
  match stack s with
  | [] => UB
  | c :: cs => Ok tt (set_stack (fun _ => f c :: cs) s)
  end.
(** Read of cur_ctx. /repo/src/evaluate.c:23. *)
Definition top : M ctx := fun s =>
  match stack s with [] => UB | c :: _ => Ok c s end.

(** Field updates of a context. Assignment to [c_idmap] of an E_CTX, /repo/src/c.lang:230-235. *)
Definition c_set_idmap f c := mkctx (c_id c) (c_name c) (f (c_idmap c)) (c_structs c) (c_unions c)
  (c_allocs c) (c_retval c) (c_break c) (c_isfn c).
(** Assignment to [c_structs] of an E_CTX, /repo/src/c.lang:230-235. *)
Definition c_set_structs f c := mkctx (c_id c) (c_name c) (c_idmap c) (f (c_structs c)) (c_unions c)
  (c_allocs c) (c_retval c) (c_break c) (c_isfn c).
(** Assignment to [c_unions] of an E_CTX, /repo/src/c.lang:230-235. *)
Definition c_set_unions f c := mkctx (c_id c) (c_name c) (c_idmap c) (c_structs c) (f (c_unions c))
  (c_allocs c) (c_retval c) (c_break c) (c_isfn c).
(** Assignment to [c_allocs] of an E_CTX, /repo/src/c.lang:230-235. *)
Definition c_set_allocs f c := mkctx (c_id c) (c_name c) (c_idmap c) (c_structs c) (c_unions c)
  (f (c_allocs c)) (c_retval c) (c_break c) (c_isfn c).
(** Assignment to [c_retval] of an E_CTX, /repo/src/c.lang:230-235. *)
Definition c_set_retval v c := mkctx (c_id c) (c_name c) (c_idmap c) (c_structs c) (c_unions c)
  (c_allocs c) v (c_break c) (c_isfn c).
(** Assignment to [c_break] of an E_CTX, /repo/src/c.lang:230-235. *)
Definition c_set_break v c := mkctx (c_id c) (c_name c) (c_idmap c) (c_structs c) (c_unions c)
  (c_allocs c) (c_retval c) v (c_isfn c).
(** Assignment to [c_isfn] of an E_CTX, /repo/src/c.lang:230-235. *)
Definition c_set_isfn v c := mkctx (c_id c) (c_name c) (c_idmap c) (c_structs c) (c_unions c)
  (c_allocs c) (c_retval c) (c_break c) v.
