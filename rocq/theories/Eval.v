(** The evaluator, /repo/src/evaluate.c, and the foreign-function layer,
    /repo/src/function-call.c; one definition per C function.

    The C functions call each other recursively through [__evaluate_1],
    [handle_declarator], [instantiate_struct] and call-backs from external code;
    these are taken from the record [knot], and [K n] ties it with recursion depth
    [n].  The [depth] parameters of the C functions (never used) are dropped. *)
From Coq Require Import ZArith List String Ascii Bool.
From Verif Require Import CInt Tree SpecResolver State.
Import ListNotations.
Local Open Scope Z_scope.
Local Open Scope m_scope.

(** ** Iteration *)

(** [for_each_tree (x, l) f(x);]. /repo/src/tree.h:154-156. *)
Fixpoint iterM {A} (f : A -> M unit) (l : list A) : M unit :=
  match l with
  | [] => ret tt
  | x :: l => f x ;; iterM f l
  end.

(** [for_each_tree (x, l) acc = f(acc, x);]. /repo/src/tree.h:154-156. *)
Fixpoint foldM {A B} (f : B -> A -> M B) (acc : B) (l : list A) : M B :=
  match l with
  | [] => ret acc
  | x :: l => acc' <- f acc x ;; foldM f acc' l
  end.

(** [for_each_tree (x, l) tree_chain(f(x), result);]. /repo/src/tree.h:144-156; e.g. /repo/src/evaluate.c:378-392. *)
Fixpoint mapM {A B} (f : A -> M B) (l : list A) : M (list B) :=
  match l with
  | [] => ret []
  | x :: l => y <- f x ;; ys <- mapM f l ;; ret (y :: ys)
  end.

(** ** Look-up *)

(** [__resolve_id], /repo/src/evaluate.c:128-137, for an identifier named [x];
    NULL when absent. *)
Fixpoint resolve_id (x : string) (idmap : list (string * tree)) : tree :=
  match idmap with
  | [] => NULL
  | (y, t) :: m => if String.eqb y x then t else resolve_id x m
  end.

(** The [while (search_ctx)] loop of /repo/src/evaluate.c:170-177 and the search of
    include_ctx after it (180-185), over the given maps. *)
Fixpoint resolve_maps (x : string) (maps : list (list (string * tree))) : tree :=
  match maps with
  | [] => NULL
  | m :: maps => match resolve_id x m with
                 | NULL => resolve_maps x maps
                 | t => t
                 end
  end.

(** The contexts searched by SCOPE_GLOBAL, /repo/src/evaluate.c:163-185. *)
Definition scope_ctxs (s : state) : list ctx :=
  stack s ++ match incl s with Some c => [c] | None => [] end.

(** [resolve_identifier (id, SCOPE_GLOBAL)], /repo/src/evaluate.c:159-194.  Something that
    is not an identifier has no string to compare (the builtin scope is never empty). *)
Definition resolve_identifier_global (id : tree) : M tree :=
  match id with
  | T_IDENTIFIER x => gets (fun s => resolve_maps x (map c_idmap (scope_ctxs s)))
  | _ => ub
  end.

(** [resolve_identifier (id, SCOPE_CURRENT_CTX)], /repo/src/evaluate.c:159-166. *)
Definition resolve_identifier_current (id : tree) : M tree :=
  c <- top ;;
  match id with
  | T_IDENTIFIER x => ret (resolve_id x (c_idmap c))
  | _ => match c_idmap c with [] => ret NULL | _ => ub end
  end.

(** The contents of a T_DECL_COMPOUND node: what the evaluator last wrote, or what the
    parser made.  An E_INCOMP_TYPE node becomes a compound when tree_copy overwrites it
    (/repo/src/evaluate.c:2201). *)
Definition view_comp (s : state) (t : tree) : option comp :=
  match t with
  | T_DECL_COMPOUND l k id d =>
      match zfind l (comps s) with
      | Some c => Some c
      | None => Some (mkcomp k id d false [] 0 false)
      end
  | E_INCOMP_TYPE l => zfind l (comps s)
  | _ => None
  end.

(** [is_T_DECL_COMPOUND], /repo/src/tree.h:171-184. *)
Definition is_T_DECL_COMPOUND (s : state) (t : tree) : bool :=
  match view_comp s t with Some _ => true | None => false end.
(** [is_E_INCOMP_TYPE], /repo/src/tree.h:171-184. *)
Definition is_E_INCOMP_TYPE (s : state) (t : tree) : bool :=
  match t with E_INCOMP_TYPE _ => negb (is_T_DECL_COMPOUND s t) | _ => false end.
(** Identity of a compound declaration node. Stands for the address of the node (/repo/src/c.lang:177-182). *)
Definition comp_label (t : tree) : option Z :=
  match t with
  | T_DECL_COMPOUND l _ _ _ => Some l
  | E_INCOMP_TYPE l => Some l
  | _ => None
  end.
(** [!tCOMP_DECL_DECLS(t)]. As tested in /repo/src/evaluate.c:1114-1115. *)
Definition no_decls (c : comp) : bool :=
  negb (cd_split c) && is_NULL (cd_decls c).

(** [resolve_compound], /repo/src/evaluate.c:196-209; [global] selects the scope. *)
Definition resolve_compound (c : comp) (global : bool) : M tree :=
  match cd_id c with
  | NULL => abort
  | T_IDENTIFIER x =>
      let proj := match cd_type c with sstruct => c_structs | uunion => c_unions end in
      if global then gets (fun s => resolve_maps x (map proj (scope_ctxs s)))
      else cx <- top ;; ret (resolve_id x (proj cx))
  | _ => ub
  end.

Section Evaluator.
Variable E : env.

(** ** Contexts and allocation *)

(** [pop_ctx], /repo/src/evaluate.c:54-64. *)
Definition pop_ctx : M unit := fun s =>
  match stack s with
  | [] => UB
  | [_] => Die s
  | _ :: cs => Ok tt (set_stack (fun _ => cs) s)
  end.

(** [push_ctx], /repo/src/evaluate.c:66-83. *)
Definition push_ctx (name : string) : M unit :=
  tick E ;; i <- fresh_id ;;
  modify (set_stack (fun cs => mkctx i name [] [] [] [] NULL false false :: cs)).

(** [track_alloc], /repo/src/evaluate.c:85-94. *)
Definition track_alloc (a : Z) : M unit :=
  tick E ;;
  upd_top (c_set_allocs (fun l => l ++ [a])) ;;
  modify (set_blocks (map (fun b => if b_base b =? a
                                    then mkblock (b_base b) (b_size b) true else b))).

(** [__map_identifer], /repo/src/evaluate.c:228-239, on the identifier map of cur_ctx. *)
Definition map_identifer_cur (id t : tree) : M unit :=
  tick E ;;
  match id with
  | T_IDENTIFIER x => upd_top (c_set_idmap (fun m => m ++ [(x, t)]))
  | NULL => ub
  | _ => die
  end.

(** [map_identifier], /repo/src/evaluate.c:257-264. *)
Definition map_identifier (id t : tree) : M unit :=
  r <- resolve_identifier_current id ;;
  match r with
  | NULL => map_identifer_cur id t
  | _ => die
  end.

(** [map_compound], /repo/src/evaluate.c:266-276. *)
Definition map_compound (c : comp) (t : tree) : M unit :=
  match cd_id c with
  | T_IDENTIFIER x =>
      tick E ;;
      match cd_type c with
      | sstruct => upd_top (c_set_structs (fun m => m ++ [(x, t)]))
      | uunion => upd_top (c_set_unions (fun m => m ++ [(x, t)]))
      end
  | _ => abort
  end.

(** [eval_identifier], /repo/src/evaluate.c:278-289. *)
Definition eval_identifier (t : tree) : M tree :=
  r <- resolve_identifier_global t ;;
  match r with NULL => die | _ => ret r end.

(** [make_live_var], /repo/src/evaluate.c:291-307; the address of the new 16-byte
    [union value]. *)
Definition make_live_var_addr : M Z :=
  tick E ;; a <- malloc E 16 ;; track_alloc a ;; ret a.
(** The live variable of a given type stored there. /repo/src/evaluate.c:291-307. *)
Definition live_var (type : tree) (a : Z) : tree := T_LIVE_VAR type a false 0.

(** [make_int_from_live_var], /repo/src/evaluate.c:309-336.  The value goes through
    [(ptrdiff_t)], i.e. it is reduced to a signed 64-bit number. *)
Definition make_int_from_live_var (type : tree) (a : Z) : M tree :=
  tick E ;;
  match type with
  | NULL => ub
  | D_T c => if is_intty c
             then v <- load a (csize c) ;; ret (T_INTEGER (smod 64 (conv c v)))
             else die
  | D_T_PTR _ => v <- load a 8 ;; ret (T_INTEGER (smod 64 v))
  | _ => die
  end.

(** [if (is_T_LIVE_VAR(x)) x = make_int_from_live_var(x);], e.g.
    /repo/src/evaluate.c:1380-1384. *)
Definition lv_to_int (t : tree) : M tree :=
  match t with
  | T_LIVE_VAR type a _ _ => make_int_from_live_var type a
  | _ => ret t
  end.

(** Entry points of the mutual recursion.
    /repo/src/evaluate.c:2635-2713, 743-821, 706-720 and what happens in /repo/src/function-call.c:118. *)
Record knot : Type := mkknot {
  k_ev : tree -> M tree;                    (* __evaluate_1 *)
  k_hd : tree -> tree -> M tree;            (* handle_declarator *)
  k_inst : tree -> Z -> M tree;             (* instantiate_struct *)
  k_ext : Z -> list arg -> nat -> M Z       (* rest of an external call *)
}.

Section Knot.
Variable k : knot.
Let ev := k_ev k.

(** ** Sizes *)

(** [get_size_of_type], /repo/src/evaluate.c:241-255. *)
Definition get_size_of_type (type : tree) : M Z :=
  s <- get ;;
  match view_comp s type with
  | Some c => if cd_sz c =? 0
              then tick E ;; sz <- ev (T_SIZEOF type) ;;
                   match sz with T_LIVE_VAR _ a _ _ => load a 8 | _ => ub end
              else ret (cd_sz c)
  | None => tick E ;; sz <- ev (T_SIZEOF type) ;;
            match sz with T_LIVE_VAR _ a _ _ => load a 8 | _ => ub end
  end.

(** [convert_to_comparable_type], /repo/src/evaluate.c:338-362. *)
Definition convert_to_comparable_type (t : tree) : M tree :=
  e <- ev t ;;
  match e with
  | NULL => ub
  | T_INTEGER _ => ret e
  | T_LIVE_VAR type a _ _ =>
      match type with
      | NULL => ub
      | D_T c => if is_intty c then make_int_from_live_var type a else die
      | D_T_PTR _ => make_int_from_live_var type a
      | _ => die
      end
  | _ => die
  end.

(** The value of a comparable, which is always a T_INTEGER. /repo/src/evaluate.c:338-376. *)
Definition comparable (t : tree) : M Z :=
  r <- convert_to_comparable_type t ;;
  match r with T_INTEGER z => ret z | _ => die end.

(** [eval_fn_args], /repo/src/evaluate.c:378-392. *)
Definition eval_fn_args (args : tree) : M (list tree) :=
  tick E ;; mapM (fun a => tick E ;; ev a) (chain_elems args).

(** ** Statement lists *)

(** [tECTX_RETVAL(fn_ctx) = v] for the innermost function context,
    /repo/src/evaluate.c:2729-2741. *)
Fixpoint set_retval (v : tree) (cs : list ctx) : list ctx :=
  match cs with
  | [] => []
  | c :: cs => if c_isfn c then c_set_retval v c :: cs else c :: set_retval v cs
  end.

(** /repo/src/evaluate.c:2731-2732 *)
Fixpoint find_fn_ctx (cs : list ctx) : option Z :=
  match cs with
  | [] => None
  | c :: cs => if c_isfn c then Some (c_id c) else find_fn_ctx cs
  end.

(** [tRET_EXP] of the return node labelled [l].
    /repo/src/evaluate.c:2071, 2739-2741; the field is overwritten at line 2071. *)
Definition ret_exp (s : state) (l : Z) (e : tree) : tree :=
  match zfind l (ov_ret s) with Some v => v | None => e end.

(** [get_c_main_return_value], /repo/src/evaluate.c:2750-2761. *)
Definition get_c_main_return_value (t : tree) : M Z :=
  z <- comparable t ;; ret (smod 32 (mpz_get_si z)).

(** [cscript_exit], /repo/src/cscript.c:188-191. *)
Definition cscript_exit {A} (t : tree) : M A :=
  n <- get_c_main_return_value t ;; exit_ n.

(** /repo/src/evaluate.c:2728-2743 *)
Definition do_return (v : tree) : M unit :=
  s <- get ;;
  match find_fn_ctx (stack s) with
  | None => cscript_exit v
  | Some i => modify (set_stack (set_retval v)) ;; longjmp i
  end.

(** /repo/src/evaluate.c:2725-2747 *)
Fixpoint evaluate_chain (l : list tree) : M unit :=
  match l with
  | [] => ret tt
  | i :: l =>
      result <- ev i ;;
      match result with
      | T_RETURN lbl e => s <- get ;; do_return (ret_exp s lbl e)
      | T_BREAK => ret tt
      | _ => evaluate_chain l
      end
  end.

(** [__evaluate], /repo/src/evaluate.c:2715-2748.  A single statement is evaluated once and
    its result dropped; the loop over its own (self-linked) chain field does nothing. *)
Definition evaluate_stmts (head : tree) : M unit :=
  match head with
  | NULL => ret tt
  | CHAIN_HEAD l => evaluate_chain l
  | _ => ev head ;; ret tt
  end.

(** ** Calls of external functions *)

(** [get_ffi_type], generated by /repo/src/genffitypes.cpp:5-31 from c.lang:255-269: the
    type as libffi sees it (long long is mapped to long), exit(1) when it is no C type. *)
Definition ffi_of (c : ctype) : ctype :=
  match c with D_T_LONGLONG => D_T_LONG | D_T_ULONGLONG => D_T_ULONG | _ => c end.
(** /repo/src/genffitypes.cpp:5-31 *)
Definition get_ffi_type (t : tree) : M (option ctype) :=
  match t with
  | NULL => ub
  | D_T c => ret (Some (ffi_of c))
  | D_T_PTR _ => ret None
  | _ => die
  end.

(** [push_arg], /repo/src/function-call.c:15-49, the default argument promotions; the
    promoted value lives in a fresh live variable. *)
Definition promotion (c : ctype) (bits : Z) : option (ctype * Z) :=
  match c with
  | D_T_FLOAT => Some (D_T_DOUBLE, e_fp_cast E D_T_FLOAT D_T_DOUBLE bits)
  | D_T_CHAR | D_T_SHORT => Some (D_T_INT, bits)
  | D_T_UCHAR | D_T_USHORT => Some (D_T_UINT, bits)
  | _ => None
  end.
(** /repo/src/function-call.c:15-49 *)
Definition push_arg (n : nat) (c : ctype) (bits : Z) (should_promote : bool) : M arg :=
  match (if should_promote then promotion c bits else None) with
  | Some (c', v) => a <- make_live_var_addr ;; store a (bytes_c c' v) ;;
                    if Nat.eqb n 32 then die else ret (AVal (Some c') v)
  | None => if Nat.eqb n 32 then die else ret (AVal (Some c) bits)
  end.

(** The value of one scalar as libffi reads it. /repo/src/function-call.c:78-87, 118. *)
Definition load_scalar (c : ctype) (a : Z) : M Z :=
  v <- load a (csize c) ;; ret (if is_intty c then conv c v else v).

(** The switch of [do_ext_call] on one argument, /repo/src/function-call.c:72-107. *)
Definition marshal_arg (variadic_pos : option nat) (n : nat) (v : tree) : M arg :=
  let should_promote := match variadic_pos with Some p => Nat.leb p n | None => false end in
  match v with
  | NULL => ub
  | T_STRING s => if Nat.eqb n 32 then die else ret (AStr s)
  | T_LIVE_VAR type a _ _ =>
      match type with
      | NULL => ub
      | D_T c => bits <- load_scalar c a ;; push_arg n (ffi_of c) bits should_promote
      | D_T_PTR _ => bits <- load a 8 ;;
                     if Nat.eqb n 32 then die else ret (AVal None bits)
      | _ => die
      end
  | T_INTEGER z => push_arg n D_T_INT (smod 32 (mpz_get_si z)) should_promote
  | T_FLOAT m d => push_arg n D_T_DOUBLE (e_fp_lit E m d) should_promote
  | _ => die
  end.

(** The loop over the arguments, /repo/src/function-call.c:67-108. *)
Fixpoint marshal_args (variadic_pos : option nat) (n : nat) (l : list tree) : M (list arg) :=
  match l with
  | [] => ret []
  | v :: l => a <- marshal_arg variadic_pos n v ;;
              rest <- marshal_args variadic_pos (S n) l ;; ret (a :: rest)
  end.

(** [closure_entry], /repo/src/function-call.c:126-158: builds live variables for the
    arguments and evaluates a call of the interpreted function.  The result is dropped. *)
Fixpoint closure_args (types : list tree) (args : list Z) : M (list tree) :=
  match types, args with
  | [], _ => ret []
  | _ :: _, [] => ub
  | ty :: types, v :: args =>
      match ty with
      | NULL => ub
      | D_T c => a <- make_live_var_addr ;; store a (bytes_c c v) ;;
                 rest <- closure_args types args ;; ret (live_var ty a :: rest)
      | D_T_PTR _ => a <- make_live_var_addr ;; store a (le_bytes 8 v) ;;
                     rest <- closure_args types args ;; ret (live_var ty a :: rest)
      | _ => die
      end
  end.
(** /repo/src/function-call.c:126-158 *)
Definition closure_entry (c : closure) (args : list Z) : M unit :=
  tick E ;;
  lvs <- closure_args (cl_types c) args ;;
  ev (T_FN_CALL (cl_fn c) (CHAIN_HEAD lvs)) ;; ret tt.

(** Code address to closure. Entering the code made at /repo/src/function-call.c:203-213. *)
Definition find_closure (a : Z) (s : state) : option closure :=
  find (fun c => cl_addr c =? a) (closures s).

(** One step of external code, chosen by the environment. Inside ffi_call, /repo/src/function-call.c:118. *)
Definition ext_step (addr : Z) (args : list arg) (i : nat) : M Z :=
  s <- get ;;
  match e_ext E addr args s i with
  | EDone bits => ret bits
  | EWrite a bytes => store a bytes ;; k_ext k addr args (S i)
  | EMalloc n => malloc E n ;; k_ext k addr args (S i)
  | EFree a =>
      match find (fun b => b_base b =? a) (blocks s) with
      | Some b => if b_tracked b then ub
                  else modify (set_blocks (filter (fun b => negb (b_base b =? a)))) ;;
                       k_ext k addr args (S i)
      | None => ub
      end
  | ECall a vals =>
      match find_closure a s with
      | Some c => closure_entry c vals ;; k_ext k addr args (S i)
      | None => ub
      end
  | EExit n => exit_ n
  | EAbort => abort
  end.

(** The bits of an argument, for a call that enters a closure. /repo/src/function-call.c:126-150. *)
Fixpoint arg_bits (l : list arg) : option (list Z) :=
  match l with
  | [] => Some []
  | AVal _ b :: l => match arg_bits l with Some r => Some (b :: r) | None => None end
  | AStr _ :: _ => None
  end.

(** Width of a value returned by libffi in its result buffer (integers are widened to a
    full register). /repo/src/function-call.c:110-118. *)
Definition ret_bytes (ty : option ctype) (bits : Z) : list Z :=
  match ty with
  | None => le_bytes 8 bits
  | Some c => if is_intty c then le_bytes 8 (conv c bits)
              else le_bytes (Z.to_nat (csize c)) bits
  end.

(** [do_ext_call], /repo/src/function-call.c:51-124.  [ret_lv] is the type and address of
    the result variable.  A call whose address is a closure of the interpreter enters it;
    its result buffer is left as the environment says (closure_entry never writes it). *)
Definition do_ext_call (addr : Z) (args : list tree) (ret_lv : option (tree * Z))
    (variadic_pos : option nat) : M unit :=
  vals <- marshal_args variadic_pos 0 args ;;
  rty <- match ret_lv with
         | Some (ty, _) => t <- get_ffi_type ty ;; ret (Some t)
         | None => ret None
         end ;;
  modify (set_trace (fun t => EvCall addr vals :: t)) ;;
  s <- get ;;
  bits <- match find_closure addr s with
          | Some c =>
              match arg_bits vals with
              | Some bs => closure_entry c bs ;;
                           ret (match e_ext E addr vals s 0 with EDone b => b | _ => 0 end)
              | None => unmodelled
              end
          | None =>
              if addr =? e_alloca E
              then match vals with AVal _ n :: _ => malloc E (u64 n) | _ => ub end
              else if addr =? 0 then ub
              else k_ext k addr vals 0%nat
          end ;;
  match ret_lv, rty with
  | Some (_, a), Some t => store a (ret_bytes t bits)
  | _, _ => ret tt
  end.

(** The search for [...] in the parameter list, /repo/src/evaluate.c:523-530, 562-569. *)
Fixpoint variadic_position (n : nat) (l : list tree) : option nat :=
  match l with
  | [] => None
  | i :: l => if is_T_VARIADIC i then Some n else variadic_position (S n) l
  end.

(** [ret_lv = make_live_var(ret_type)] unless void, /repo/src/evaluate.c:536-537. *)
Definition make_ret_lv (ret_type : tree) : M (option (tree * Z)) :=
  if is_D_T_VOID ret_type then ret None
  else a <- make_live_var_addr ;; ret (Some (ret_type, a)).
(** The tree for it. /repo/src/evaluate.c:530-580. *)
Definition ret_lv_tree (r : option (tree * Z)) : tree :=
  match r with Some (ty, a) => live_var ty a | None => NULL end.

(** ** Calls of interpreted functions *)

(** Binding of parameters, /repo/src/evaluate.c:451-487.  The temporary T_ASSIGN node gets
    a fresh identity. *)
Definition bind_param (arg_decl arg_val : tree) : M unit :=
  v <- ev arg_val ;;
  d <- ev arg_decl ;;
  tick E ;; l <- fresh_id ;;
  ev (T_ASSIGN l d v) ;; ret tt.

(** /repo/src/evaluate.c:451-487 *)
Fixpoint bind_params (decls vals : list tree) : M unit :=
  match decls, vals with
  | d :: decls, v :: vals => bind_param d v ;; bind_params decls vals
  | _, _ => ret tt
  end.

(** [while (cur_ctx != fn_ctx) pop_ctx();], /repo/src/evaluate.c:501-502. *)
Fixpoint drop_until (i : Z) (cs : list ctx) : option (list ctx) :=
  match cs with
  | [] => None
  | c :: cs' => if c_id c =? i then Some cs else drop_until i cs'
  end.
(** /repo/src/evaluate.c:501-502 *)
Definition pop_until (i : Z) : M unit := fun s =>
  match drop_until i (stack s) with
  | Some cs => Ok tt (set_stack (fun _ => cs) s)
  | None => Die s
  end.

(** [setjmp] on the context with identity [j]: a longjmp to [j] from [m] continues with
    [h]. /repo/src/evaluate.c:490-510. *)
Definition catch {A B} (j : Z) (m : M A) (normal : A -> M B) (h : M B) : M B := fun s =>
  match m s with
  | Jmp i s' => if i =? j then h s' else Jmp i s'
  | Ok a s' => normal a s'
  | Die s' => Die s'
  | Abort s' => Abort s'
  | Exit n s' => Exit n s'
  | UB => UB
  | Fuel => Fuel
  | NoMemory n s' => NoMemory n s'
  | Unmodelled s' => Unmodelled s'
  end.

(** The call of a defined function, /repo/src/evaluate.c:423-509. *)
Definition call_defined (decl arg_decls stmts arg_vals : tree) : M tree :=
  name <- match decl with T_IDENTIFIER x => ret x | _ => ub end ;;
  push_ctx name ;;
  upd_top (c_set_isfn true) ;;
  fn_ctx <- top ;;
  (match arg_decls with
   | NULL => ret tt
   | _ => if Nat.eqb (List.length (chain_elems arg_vals)) (List.length (chain_elems arg_decls))
          then bind_params (chain_elems arg_decls) (chain_elems arg_vals)
          else die
   end) ;;
  jmp_ctx <- top ;;
  catch (c_id jmp_ctx) (evaluate_stmts stmts)
    (fun _ => pop_ctx ;; ret NULL)
    (pop_until (c_id fn_ctx) ;; c <- top ;; pop_ctx ;; ret (c_retval c)).

(** [handle_builtin_strcpy_chk] and [handle_builtin_strcat_chk],
    /repo/src/evaluate.c:2774-2810: the third argument is removed and the libc function
    called.  Simplification: the removal is not written back to the syntax tree. *)
Definition handle_builtin (b : builtin) (args : tree) : M tree :=
  tick E ;;
  let l := chain_elems args in
  ev (T_FN_CALL (T_IDENTIFIER (match b with strcpy_chk => "strcpy" | strcat_chk => "strcat" end))
                (match args with NULL => NULL | _ => CHAIN_HEAD (firstn 2 l ++ skipn 3 l) end)).

(** [eval_fn_call], /repo/src/evaluate.c:394-590. *)
Definition eval_fn_call (id args : tree) : M tree :=
  f0 <- ev id ;;
  f <- match f0 with T_EXT_FUNC _ => ev f0 | _ => ret f0 end ;;
  match f with
  | T_FN decl arg_decls ret_type stmts =>
      match stmts with
      | NULL =>
          name <- match decl with T_IDENTIFIER x => ret x | _ => ub end ;;
          if e_dlsym E name =? 0 then die else
          (vs <- eval_fn_args args ;;
           r <- make_ret_lv ret_type ;;
           do_ext_call (e_dlsym E name) vs r (variadic_position 0 (chain_elems arg_decls)) ;;
           ret (ret_lv_tree r))
      | _ => call_defined decl arg_decls stmts args
      end
  | T_LIVE_VAR type a _ _ =>
      match type with
      | D_T_PTR (T_FN _ arg_decls ret_type _) =>
          r <- make_ret_lv ret_type ;;
          vs <- eval_fn_args args ;;
          addr <- load a 8 ;;
          do_ext_call addr vs r (variadic_position 0 (chain_elems arg_decls)) ;;
          ret (ret_lv_tree r)
      | _ => die
      end
  | T_BUILTIN b => handle_builtin b args
  | _ => ret NULL
  end.

(** ** Declarations *)

(** [make_and_map_live_var], /repo/src/evaluate.c:592-606 (called with an identifier). *)
Definition make_and_map_live_var (id type : tree) : M unit :=
  s <- get ;;
  if is_E_INCOMP_TYPE s type then die else
  (a <- make_live_var_addr ;; map_identifier id (live_var type a)).

(** [get_array_size], /repo/src/evaluate.c:608-622; [sz] is tARRAY_SZ. *)
Definition get_array_size (sz base_type : tree) : M Z :=
  each <- get_size_of_type base_type ;;
  n0 <- ev sz ;;
  n <- lv_to_int n0 ;;
  match n with
  | T_INTEGER z => ret (u64 (each * mpz_get_ui z))
  | _ => die
  end.

(** [instantiate_array], /repo/src/evaluate.c:624-646; [id] is tARRAY_DECL. *)
Definition instantiate_array (id base_type : tree) (base length : Z) : M tree :=
  tick E ;;
  match id with
  | T_IDENTIFIER _ =>
      a <- make_live_var_addr ;;
      store a (le_bytes 8 base) ;;
      ret (T_LIVE_VAR (D_T_PTR base_type) a true length)
  | _ => die
  end.

(** [resolve_decl_specs_to_type] in the monad (it allocates the type node).
    Generated from /repo/src/genspecresolver.cpp:20-130; e.g. called at /repo/src/evaluate.c:1111. *)
Definition resolve_specs (specs : tree) : M tree :=
  tick E ;;
  match resolve_decl_specs_to_type specs with
  | SpecOk t => ret t
  | SpecDie => die
  | SpecUB => ub
  end.

(** [__map_identifer] on a member list, /repo/src/evaluate.c:228-239. *)
Definition map_member (id t : tree) (members : list (string * tree)) : M (list (string * tree)) :=
  tick E ;;
  match id with
  | T_IDENTIFIER x => ret (members ++ [(x, t)])
  | NULL => ub
  | _ => die
  end.

(** The member's type with pointers and function declarators moved into it,
    /repo/src/evaluate.c:661-671. *)
Definition member_type (decl_type decl_element : tree) : tree * tree :=
  let '(elem, type) :=
    match decl_element with
    | T_FN d a _ st => (d, T_FN d a decl_type st)
    | _ => (decl_element, decl_type)
    end in
  let '(elem, type) := resolve_ptr_type elem type in
  match elem with
  | T_BITFIELD _ d => (d, type)
  | _ => (elem, type)
  end.

(** [instantiate_struct_element], /repo/src/evaluate.c:650-704; returns the extended
    member list. *)
Definition instantiate_struct_element (base : Z) (members : list (string * tree)) (m : mdecl)
    : M (list (string * tree)) :=
  t0 <- resolve_specs (m_specs m) ;;
  s <- get ;;
  t1 <- (if is_T_IDENTIFIER t0 || is_T_DECL_COMPOUND s t0 then ev t0 else ret t0) ;;
  let '(elem, type) := member_type t1 (m_decl m) in
  match elem with
  | T_ARRAY d sz =>
      len <- get_array_size sz type ;;
      lv <- instantiate_array d type (u64 (base + m_off m)) len ;;
      map_member d lv members
  | _ =>
      if is_CTYPE type
      then tick E ;; map_member elem (live_var type (u64 (base + m_off m))) members
      else
        (s <- get ;;
         if is_T_DECL_COMPOUND s type
         then lc <- k_inst k type (u64 (base + m_off m)) ;; map_member elem lc members
         else die)
  end.

(** [instantiate_struct], /repo/src/evaluate.c:706-720. *)
Definition instantiate_struct (decl : tree) (base : Z) : M tree :=
  tick E ;;
  s <- get ;;
  match view_comp s decl with
  | None => ub
  | Some c =>
      if cd_exp c
      then ms <- foldM (instantiate_struct_element base) [] (cd_mem c) ;;
           ret (T_LIVE_COMPOUND decl ms base)
      else abort
  end.

(** [alloc_struct], /repo/src/evaluate.c:722-729. *)
Definition alloc_struct (decl : tree) : M tree :=
  s <- get ;;
  match view_comp s decl with
  | None => ub
  | Some c => base <- malloc E (cd_sz c) ;; track_alloc base ;; k_inst k decl base
  end.

(** [alloc_array], /repo/src/evaluate.c:731-741. *)
Definition alloc_array (id sz base_type : tree) : M tree :=
  array_sz <- get_array_size sz base_type ;;
  m <- malloc E array_sz ;;
  lv <- instantiate_array id base_type m array_sz ;;
  track_alloc m ;;
  ret lv.

(** [tASSIGN_LHS] of the assignment node labelled [l]. The field is overwritten at /repo/src/evaluate.c:813. *)
Definition assign_lhs (s : state) (l : Z) (lhs : tree) : tree :=
  match zfind l (ov_asn s) with Some v => v | None => lhs end.

(** The array case of [handle_declarator], /repo/src/evaluate.c:764-772. *)
Definition declare_array (id sz base_type : tree) : M tree :=
  lv <- alloc_array id sz base_type ;;
  map_identifier id lv ;;
  ret id.

(** The switch of [handle_declarator], /repo/src/evaluate.c:774-820. *)
Definition declare_other (decl decl_type : tree) : M tree :=
  match decl with
  | T_IDENTIFIER _ => make_and_map_live_var decl decl_type ;; ret decl
  | T_FN d args _ stmts =>
      tick E ;;
      match d with
      | T_POINTER _ => k_hd k d (T_FN NULL args decl_type stmts)
      | _ =>
          prev <- match stmts with
                  | NULL => resolve_identifier_current d
                  | _ => ret NULL
                  end ;;
          match prev with
          | NULL => map_identifier d (T_FN d args decl_type stmts) ;; ret decl
          | _ => ret prev
          end
      end
  | T_BITFIELD _ d => match d with NULL => ret NULL | _ => k_hd k d decl_type end
  | T_ASSIGN l lhs rhs =>
      s <- get ;;
      r <- k_hd k (assign_lhs s l lhs) decl_type ;;
      modify (set_ov_asn (fun o => (l, r) :: o)) ;;
      ev decl ;;
      ret r
  | _ => die
  end.

(** [handle_declarator], /repo/src/evaluate.c:743-821. *)
Definition handle_declarator (decl0 type0 : tree) : M tree :=
  tick E ;;
  let '(decl, decl_type) := resolve_ptr_type decl0 type0 in
  if is_NULL decl || is_NULL decl_type then abort else
  (s <- get ;;
   if is_T_DECL_COMPOUND s decl_type && is_T_IDENTIFIER decl
   then lc <- alloc_struct decl_type ;; map_identifier decl lc ;; ret decl
   else
     match decl_type with
     | T_ARRAY_TYPE base sz => declare_array decl sz base
     | _ => match decl with
            | T_ARRAY id sz => declare_array id sz decl_type
            | _ => declare_other decl decl_type
            end
     end).

(** [map_typedef], /repo/src/evaluate.c:823-854. *)
Fixpoint map_typedef (id type : tree) : M tree :=
  match id with
  | T_POINTER e => map_typedef e (D_T_PTR type)
  | T_FN d args _ stmts =>
      tick E ;;
      match d with
      | T_POINTER _ => map_typedef d (T_FN NULL args type stmts)
      | _ => map_typedef d (T_FN d args type stmts)
      end
  | T_ARRAY d sz =>
      tick E ;;
      match d with
      | T_IDENTIFIER _ => map_identifier d (T_ARRAY_TYPE type sz) ;; ret d
      | NULL => ub
      | _ => die
      end
  | T_IDENTIFIER _ => map_identifier id type ;; ret id
  | NULL => ub
  | _ => die
  end.

(** [handle_extern_fn], /repo/src/evaluate.c:861-909.  Simplification: the return type is
    recorded in the new T_EXT_FUNC only (the C code also writes it into the declarator
    node, where only this function reads it). *)
Definition handle_extern_fn (return_type id args stmts : tree) : M tree :=
  match id with
  | T_IDENTIFIER _ =>
      prev <- resolve_identifier_current id ;;
      match prev with
      | T_LIVE_VAR (D_T_PTR (T_FN _ _ _ _)) _ _ _ => ret id
      | T_LIVE_VAR _ _ _ _ => die
      | T_EXT_FUNC _ => ret id
      | _ => tick E ;;
             map_identifier id (T_EXT_FUNC (T_FN id args return_type stmts)) ;; ret id
      end
  | _ => die
  end.

(** [resolve_symbol], /repo/src/evaluate.c:911-926. *)
Definition resolve_symbol (id : tree) : M Z :=
  match id with
  | T_IDENTIFIER x => if e_dlsym E x =? 0 then die else ret (e_dlsym E x)
  | NULL => ub
  | _ => die
  end.

(** [TYPE(a) != TYPE(b)] for the types of two declarations, /repo/src/evaluate.c:957. *)
Definition same_type_tag (s : state) (a b : tree) : bool :=
  match a, b with
  | D_T c, D_T c' => match c, c' with
      | D_T_CHAR, D_T_CHAR | D_T_SHORT, D_T_SHORT | D_T_INT, D_T_INT | D_T_LONG, D_T_LONG
      | D_T_LONGLONG, D_T_LONGLONG | D_T_UCHAR, D_T_UCHAR | D_T_USHORT, D_T_USHORT
      | D_T_UINT, D_T_UINT | D_T_ULONG, D_T_ULONG | D_T_ULONGLONG, D_T_ULONGLONG
      | D_T_FLOAT, D_T_FLOAT | D_T_DOUBLE, D_T_DOUBLE | D_T_LONGDOUBLE, D_T_LONGDOUBLE => true
      | _, _ => false end
  | D_T_PTR _, D_T_PTR _ => true
  | D_T_VOID, D_T_VOID => true
  | T_FN _ _ _ _, T_FN _ _ _ _ => true
  | T_ARRAY_TYPE _ _, T_ARRAY_TYPE _ _ => true
  | T_IDENTIFIER _, T_IDENTIFIER _ => true
  | _, _ => (is_T_DECL_COMPOUND s a && is_T_DECL_COMPOUND s b)
            || (is_E_INCOMP_TYPE s a && is_E_INCOMP_TYPE s b)
  end.

(** [handle_extern_decl], /repo/src/evaluate.c:928-975. *)
Definition handle_extern_decl (type0 decl0 : tree) : M tree :=
  tick E ;;
  let '(decl, type) := resolve_ptr_type decl0 type0 in
  match decl with
  | T_FN id args _ stmts => handle_extern_fn type id args stmts
  | T_ARRAY id sz =>
      len <- get_array_size sz type ;;
      addr <- resolve_symbol id ;;
      lv <- instantiate_array id type addr len ;;
      map_identifier id lv ;;
      ret id
  | _ =>
      prev <- resolve_identifier_current decl ;;
      match prev with
      | NULL =>
          addr <- resolve_symbol decl ;;
          tick E ;;
          map_identifier decl (live_var type addr) ;;
          ret decl
      | T_LIVE_VAR NULL _ _ _ => ub
      | T_LIVE_VAR ty _ _ _ =>
          s <- get ;;
          if is_NULL type then ub
          else if same_type_tag s ty type then ret decl else die
      | _ => ub
      end
  end.

(** [eval_ext_func], /repo/src/evaluate.c:977-1007. *)
Definition eval_ext_func (fn : tree) : M tree :=
  tick E ;;
  match fn with
  | T_FN (T_IDENTIFIER x) _ _ _ =>
      let addr := if String.eqb x "alloca" then e_alloca E
                  else if String.eqb x "atexit" then e_atexit E
                  else if String.eqb x "at_quick_exit" then e_at_quick_exit E
                  else e_dlsym E x in
      if addr =? 0 then die else
      (a <- make_live_var_addr ;;
       store a (le_bytes 8 addr) ;;
       ev (live_var (D_T_PTR fn) a))
  | _ => ub
  end.

(** [eval_inspect], /repo/src/evaluate.c:1009-1016, inspect.c:39-105: what it does apart from printing, which is in
    Session.v.  Nodes are made for the size (inspect.c:18, 43); for a variable the size is evaluated.  Arrays have no locus
    (evaluate.c:764-772 does not set it, unlike 603 and 970), and its missing file name is followed (inspect.c:68). *)
Definition eval_inspect (t : tree) : M tree :=
  obj <- resolve_identifier_global t ;;
  match obj with
  | NULL => ret NULL
  | T_LIVE_VAR _ _ is_array _ => tick E ;; tick E ;; ev (T_SIZEOF obj) ;; if is_array then ub else ret NULL
  | _ => tick E ;; ret NULL
  end.

(** The loops [ret = f(type, i)] of /repo/src/evaluate.c:1018-1043, 1088-1091, 1136-1140. *)
Definition each_decl (f : tree -> M tree) (decls : tree) : M tree :=
  match decls with
  | CHAIN_HEAD l => foldM (fun _ d => f d) NULL l
  | _ => f decls
  end.

(** [handle_extern_decls], /repo/src/evaluate.c:1018-1030. *)
Definition handle_extern_decls (type decls : tree) : M tree :=
  each_decl (handle_extern_decl type) decls.

(** [handle_typedef], /repo/src/evaluate.c:1032-1043. *)
Definition handle_typedef (type decls : tree) : M tree :=
  each_decl (fun d => map_typedef d type) decls.

(** [handle_forward_decl], /repo/src/evaluate.c:1045-1065. *)
Definition handle_forward_decl (c : comp) : M tree :=
  if negb (no_decls c) || is_NULL (cd_id c) then abort else
  (r <- resolve_compound c true ;;
   match r with
   | NULL => tick E ;; l <- fresh_id ;; map_compound c (E_INCOMP_TYPE l) ;; ret (cd_id c)
   | _ => ret (cd_id c)
   end).

(** The function definition in a static declaration, /repo/src/evaluate.c:1073-1076. *)
Fixpoint static_fn (l : list tree) : option tree :=
  match l with
  | [] => None
  | i :: l => match i with
              | T_FN _ _ _ NULL => static_fn l
              | T_FN _ _ _ _ => Some i
              | _ => static_fn l
              end
  end.

(** [handle_static_decl], /repo/src/evaluate.c:1067-1106. *)
Definition handle_static_decl (base_type : tree) (l : Z) (specs decls : tree) : M tree :=
  match static_fn (chain_elems decls) with
  | Some f => k_hd k f base_type
  | None =>
      push_ctx "Static declaration" ;;
      r <- each_decl (fun d => k_hd k d base_type) decls ;;
      c <- top ;;
      modify (set_statics (fun m => (l, (c_idmap c, c_allocs c)) :: m)) ;;
      tick E ;;
      pop_ctx ;;
      ev (T_DECL l specs decls) ;;
      ret r
  end.

(** [eval_decl], /repo/src/evaluate.c:1108-1143. *)
Definition eval_decl (l : Z) (specs decls : tree) : M tree :=
  t0 <- resolve_specs specs ;;
  s <- get ;;
  match (if is_NULL decls then view_comp s t0 else None) with
  | Some c => if no_decls c then handle_forward_decl c else
      (type <- ev t0 ;;
       if chain_has T_TYPEDEF specs then handle_typedef type decls
       else if chain_has T_EXTERN specs then handle_extern_decls type decls
       else if chain_has T_STATIC specs then handle_static_decl type l specs decls
       else ret NULL)
  | None =>
      type <- (if is_T_IDENTIFIER t0 || is_T_DECL_COMPOUND s t0 || is_T_ENUMERATOR t0
               then ev t0 else ret t0) ;;
      if chain_has T_TYPEDEF specs then handle_typedef type decls
      else if chain_has T_EXTERN specs then handle_extern_decls type decls
      else if chain_has T_STATIC specs then handle_static_decl type l specs decls
      else match decls with
           | NULL => ret NULL
           | _ => each_decl (fun d => k_hd k d type) decls
           end
  end.

(** [eval_evaluator_ctx], /repo/src/evaluate.c:2598-2628: a static declaration met again. *)
Definition eval_evaluator_ctx (idmap : list (string * tree)) : M tree :=
  foldM (fun _ m => map_identifier (T_IDENTIFIER (fst m)) (snd m) ;;
                    ret (T_IDENTIFIER (fst m))) NULL idmap.

(** ** Assignment *)

(** [assign_integer], /repo/src/evaluate.c:1145-1172.  From a live variable eight raw bytes
    are read whatever its type. *)
Definition assign_integer (type : tree) (a : Z) (right : tree) : M unit :=
  v <- match right with
       | NULL => ub
       | T_INTEGER z => ret (mpz_get_si z)
       | T_LIVE_VAR _ ra _ _ => w <- load ra 8 ;; ret (smod 64 w)
       | _ => die
       end ;;
  match type with
  | NULL => ub
  | D_T c => if is_intty c then store a (bytes_c c v)
             else store a (bytes_c c (e_fp_cast E D_T_LONG c v))
  | D_T_PTR _ => store a (le_bytes 8 v)
  | _ => die
  end.

(** [assign_float], /repo/src/evaluate.c:1174-1204. *)
Definition assign_float (type : tree) (a : Z) (right : tree) : M unit :=
  v <- match right with
       | NULL => ub
       | T_INTEGER z => ret (e_fp_cast E D_T_LONG D_T_DOUBLE (mpz_get_si z))
       | T_FLOAT m d => ret (e_fp_lit E m d)
       | T_LIVE_VAR _ ra _ _ => load ra 8
       | _ => die
       end ;;
  match type with
  | NULL => ub
  | D_T D_T_FLOAT => store a (le_bytes 4 (e_fp_cast E D_T_DOUBLE D_T_FLOAT v))
  | D_T D_T_DOUBLE => store a (le_bytes 8 v)
  | _ => die
  end.

(** The characters of a string with the terminating 0. As stored for a T_STRING (/repo/src/c.lang:21-23). *)
Fixpoint string_bytes (x : string) : list Z :=
  match x with
  | EmptyString => [0]
  | String c x => Z.of_N (N_of_ascii c) :: string_bytes x
  end.

(** [assign_ptr], /repo/src/evaluate.c:1206-1226. *)
Definition assign_ptr (a : Z) (right : tree) : M unit :=
  v <- match right with
       | NULL => ub
       | T_STRING x =>
           p <- malloc E (Z.of_nat (List.length (string_bytes x))) ;;
           store p (string_bytes x) ;;
           track_alloc p ;; ret p
       | T_LIVE_VAR _ ra _ _ => load ra 8
       | T_INTEGER z => ret (mpz_get_ui z)
       | _ => die
       end ;;
  store a (le_bytes 8 v).

(** [eval_assign], /repo/src/evaluate.c:1228-1254. *)
Definition eval_assign (l : Z) (lhs rhs : tree) : M tree :=
  s <- get ;;
  left <- ev (assign_lhs s l lhs) ;;
  right <- ev rhs ;;
  match left with
  | T_LIVE_VAR type a _ _ =>
      match type with
      | NULL => ub
      | D_T c => if is_intty c then assign_integer type a right
                 else match c with
                      | D_T_LONGDOUBLE => die
                      | _ => assign_float type a right
                      end
      | D_T_PTR _ => assign_ptr a right
      | _ => die
      end ;; ret right
  | _ => die
  end.

(** ** Increment and decrement *)

(** [live_var_add] and [live_var_sub] with 1, /repo/src/evaluate.c:1256-1284; [d] is 1 or -1. *)
Definition live_var_add (type : tree) (a : Z) (d : Z) : M unit :=
  match type with
  | NULL => ub
  | D_T c => v <- load a (csize c) ;;
             if is_intty c then store a (bytes_c c (conv c v + d))
             else store a (bytes_c c (if 0 <? d then e_fp_add E c v else e_fp_sub E c v))
  | D_T_PTR _ => v <- load a 8 ;; store a (le_bytes 8 (v + d))
  | _ => die
  end.

(** [eval_post_inc], [eval_post_dec], /repo/src/evaluate.c:1286-1298, 1314-1324. *)
Definition eval_post (d : Z) (exp : tree) : M tree :=
  e <- ev exp ;;
  match e with
  | T_LIVE_VAR type a _ _ =>
      r <- make_int_from_live_var type a ;;
      live_var_add type a d ;;
      ret r
  | _ => die
  end.

(** [eval_inc], [eval_dec], /repo/src/evaluate.c:1300-1312, 1326-1336. *)
Definition eval_pre (d : Z) (exp : tree) : M tree :=
  e <- ev exp ;;
  match e with
  | T_LIVE_VAR type a _ _ =>
      live_var_add type a d ;;
      make_int_from_live_var type a
  | _ => die
  end.

(** ** Operators *)

(** [eval_negate], /repo/src/evaluate.c:1338-1352. *)
Definition eval_negate (exp : tree) : M tree :=
  tick E ;;
  e <- ev exp ;;
  z <- comparable e ;;
  ret (T_INTEGER (if z =? 0 then 1 else 0)).

(** [eval_ones_comp], /repo/src/evaluate.c:1354-1369. *)
Definition eval_ones_comp (exp : tree) : M tree :=
  tick E ;;
  e <- ev exp ;;
  e' <- lv_to_int e ;;
  match e' with
  | T_INTEGER z => ret (T_INTEGER (- z - 1))
  | _ => die
  end.

(** The GMP operation of each arithmetic node: mpz_add, mpz_sub, mpz_mul_2exp,
    mpz_tdiv_q_2exp, mpz_ior, mpz_xor, mpz_and, mpz_mul, mpz_div (= mpz_fdiv_q),
    mpz_tdiv_r, /repo/src/evaluate.c:1389, 1411, 1433, 1455, 1477, 1499, 1521, 1544,
    1567, 1589.  None: GMP aborts (division by zero).  Simplification: exhaustion of
    memory by huge shifts is not modelled. *)
Definition gmp_op (op : binop) (x y : Z) : option Z :=
  match op with
  | ADD => Some (x + y)
  | SUB => Some (x - y)
  | LSHIFT => Some (Z.shiftl x (mpz_get_ui y))
  | RSHIFT => Some (Z.quot x (2 ^ mpz_get_ui y))
  | I_OR => Some (Z.lor x y)
  | X_OR => Some (Z.lxor x y)
  | I_AND => Some (Z.land x y)
  | MUL => Some (x * y)
  | DIV => if y =? 0 then None else Some (x / y)
  | MOD => if y =? 0 then None else Some (Z.rem x y)
  end.

(** [eval_add] ... [eval_mod], /repo/src/evaluate.c:1371-1592: ten functions that differ
    in the GMP call. *)
Definition eval_binop (op : binop) (lhs rhs : tree) : M tree :=
  left <- ev lhs ;;
  right <- ev rhs ;;
  tick E ;;
  left <- lv_to_int left ;;
  right <- lv_to_int right ;;
  match left, right with
  | T_INTEGER x, T_INTEGER y =>
      match gmp_op op x y with
      | Some z => ret (T_INTEGER z)
      | None => abort
      end
  | _, _ => die
  end.

(** [eval_comma], /repo/src/evaluate.c:1594-1598. *)
Definition eval_comma (lhs rhs : tree) : M tree := ev lhs ;; ev rhs.

(** The test on the result of mpz_cmp in each comparison function,
    /repo/src/evaluate.c:1614, 1638, 1662, 1686, 1716, 1744. *)
Definition cmp_holds (op : cmpop) (x y : Z) : bool :=
  match op with
  | LT => x <? y
  | GT => y <? x
  | LTEQ => x <=? y
  | GTEQ => y <=? x
  | EQ => x =? y
  | N_EQ => negb (x =? y)
  end.

(** [eval_lt] ... [eval_n_eq], /repo/src/evaluate.c:1600-1694, 1703-1757: six functions that
    differ in the test. *)
Definition eval_cmp (op : cmpop) (lhs rhs : tree) : M tree :=
  x <- comparable lhs ;;
  y <- comparable rhs ;;
  tick E ;;
  ret (T_INTEGER (if cmp_holds op x y then 1 else 0)).

(** [eval_break], /repo/src/evaluate.c:1696-1701.  The counter is ghost state. *)
Definition eval_break : M tree :=
  upd_top (c_set_break true) ;;
  modify (set_breaks (fun n => n + 1)) ;;
  ret T_BREAK.

(** [eval_logic_or], /repo/src/evaluate.c:1759-1798. *)
Definition eval_logic_or (lhs rhs : tree) : M tree :=
  x <- comparable lhs ;;
  if negb (x =? 0) then tick E ;; ret (T_INTEGER 1)
  else (y <- comparable rhs ;; tick E ;; ret (T_INTEGER (if y =? 0 then 0 else 1))).

(** [eval_logic_and], /repo/src/evaluate.c:1800-1838. *)
Definition eval_logic_and (lhs rhs : tree) : M tree :=
  x <- comparable lhs ;;
  if x =? 0 then tick E ;; ret (T_INTEGER 0)
  else (y <- comparable rhs ;; tick E ;; ret (T_INTEGER (if y =? 0 then 0 else 1))).

(** The [DEFCAST] table, /repo/src/evaluate.c:1861-1965: bytes stored for a value read as
    [src] (None: pointer); None when there is no entry. *)
Definition cast_bytes (src dst : option ctype) (v : Z) : option (list Z) :=
  match src, dst with
  | Some c, Some d =>
      if is_intty c && is_intty d then Some (bytes_c d (conv c v))
      else if is_intty c then Some (bytes_c d (e_fp_cast E c d (conv c v)))
      else Some (bytes_c d (e_fp_cast E c d v))
  | Some c, None => if is_intty c then Some (le_bytes 8 (conv c v)) else None
  | None, Some d => if is_intty d then Some (bytes_c d v) else None
  | None, None => Some (le_bytes 8 v)
  end.

(** The scalar type of a tree, if it is one: Some None is a pointer. For /repo/src/evaluate.c:1840-1968. *)
Definition scalar_of (t : tree) : option (option ctype) :=
  match t with
  | D_T c => Some (Some c)
  | D_T_PTR _ => Some None
  | _ => None
  end.
(** Its size. For /repo/src/evaluate.c:1840-1968. *)
Definition scalar_size (x : option ctype) : Z :=
  match x with Some c => csize c | None => 8 end.

(** [eval_cast], /repo/src/evaluate.c:1840-1968. *)
Definition eval_cast (newtype exp : tree) : M tree :=
  source <- ev exp ;;
  dest <- ev newtype ;;
  match source with
  | T_INTEGER _ => a <- make_live_var_addr ;; assign_integer dest a source ;; ret (live_var dest a)
  | T_FLOAT _ _ => a <- make_live_var_addr ;; assign_float dest a source ;; ret (live_var dest a)
  | T_LIVE_VAR stype sa _ _ =>
      match scalar_of stype, scalar_of dest with
      | Some sc, Some dc =>
          match cast_bytes sc dc 0 with
          | None => die
          | Some _ =>
              a <- make_live_var_addr ;;
              v <- load sa (scalar_size sc) ;;
              match cast_bytes sc dc v with
              | Some bs => store a bs ;; ret (live_var dest a)
              | None => die
              end
          end
      | _, _ => die
      end
  | _ => die
  end.

(** ** Control flow *)

(** Conditions are tested with [mpz_get_si(...) != 0], /repo/src/evaluate.c:1993, 2023, 2046,
    2060. *)
Definition truthy (z : Z) : bool := negb (mpz_get_si z =? 0).

(** [eval_loop_for], /repo/src/evaluate.c:1979-2009.  A further iteration is the evaluation
    of the loop without its initialiser. *)
Definition eval_loop_for (init cond after stmts : tree) : M tree :=
  ev init ;;
  c <- ev cond ;;
  z <- comparable c ;;
  if negb (truthy z) then ret NULL else
  (push_ctx "For Loop" ;;
   evaluate_stmts stmts ;;
   cx <- top ;;
   if c_break cx then ret NULL else
   (pop_ctx ;;
    ev after ;;
    ev (T_LOOP_FOR NULL cond after stmts))).

(** [eval_loop_while], /repo/src/evaluate.c:2011-2037.  A further iteration is a new
    evaluation of the loop. *)
Definition eval_loop_while (cond stmts : tree) : M tree :=
  c <- ev cond ;;
  z <- comparable c ;;
  if negb (truthy z) then ret NULL else
  (push_ctx "While Loop" ;;
   evaluate_stmts stmts ;;
   cx <- top ;;
   if c_break cx then ret NULL else
   (pop_ctx ;;
    ev (T_LOOP_WHILE cond stmts))).

(** [eval_infix], /repo/src/evaluate.c:2039-2050. *)
Definition eval_infix (cond t f : tree) : M tree :=
  z <- comparable cond ;;
  if truthy z then ev t else ev f.

(** [eval_if], /repo/src/evaluate.c:2052-2067. *)
Definition eval_if (cond t f : tree) : M tree :=
  z <- comparable cond ;;
  push_ctx "If statement" ;;
  (if truthy z then evaluate_stmts t else evaluate_stmts f) ;;
  pop_ctx ;;
  ret NULL.

(** [eval_return], /repo/src/evaluate.c:2069-2074: the operand is replaced by its value. *)
Definition eval_return (l : Z) (e : tree) : M tree :=
  s <- get ;;
  v <- ev (ret_exp s l e) ;;
  modify (set_ov_ret (fun o => (l, v) :: o)) ;;
  ret (T_RETURN l e).

(** ** Compound types *)

(** [expand_decl_chain], /repo/src/evaluate.c:2098-2121: pairs of specifiers and declarator. *)
Definition split_decl (d : tree) : list (tree * tree) :=
  match d with
  | T_DECL _ specs decls =>
      flat_map (fun x => match x with
                         | T_BITFIELD _ NULL => []
                         | _ => [(specs, x)]
                         end) (chain_elems decls)
  | _ => []
  end.
(** /repo/src/evaluate.c:2098-2121; each new T_DECL gets an identity. *)
Definition expand_decl_chain (decls : tree) : M (list mdecl) :=
  mapM (fun p => tick E ;; l <- fresh_id ;; ret (mkmdecl l (fst p) (snd p) 0))
       (flat_map split_decl (chain_elems decls)).

(** [get_alignment_for_type], /repo/src/evaluate.c:2125-2169.  The first member of an empty
    compound is the chain head itself, whose fields are not those of a map entry. *)
Fixpoint get_alignment_for_type (t : tree) : M Z :=
  match t with
  | NULL => ub
  | T_LIVE_VAR type _ is_array _ =>
      if is_array
      then match type with D_T_PTR e => get_size_of_type e | _ => ub end
      else get_size_of_type type
  | T_LIVE_COMPOUND _ ms _ =>
      match ms with
      | (_, m) :: _ => get_alignment_for_type m
      | [] => ub
      end
  | D_T _ | D_T_PTR _ => get_size_of_type t
  | _ => die
  end.

(** Update of the contents of a compound declaration.
    The fields of /repo/src/c.lang:177-182, assigned in /repo/src/evaluate.c:2171-2273. *)
Definition set_comp (l : Z) (c : comp) : M unit :=
  modify (set_comps (fun m => (l, c) :: m)).
(** Update of the current contents with a function. As for [set_comp]: /repo/src/evaluate.c:2171-2273. *)
Definition upd_comp (l : Z) (f : comp -> comp) : M unit :=
  s <- get ;;
  match zfind l (comps s) with
  | Some c => set_comp l (f c)
  | None => ret tt
  end.
(** Stores the offset of one member, /repo/src/evaluate.c:2253. *)
Definition set_offset (ml off : Z) (c : comp) : comp :=
  mkcomp (cd_type c) (cd_id c) (cd_decls c) (cd_split c)
    (map (fun m => if m_lbl m =? ml then mkmdecl (m_lbl m) (m_specs m) (m_decl m) off else m)
         (cd_mem c)) (cd_sz c) (cd_exp c).

(** [padding_size], /repo/src/evaluate.c:2248-2251. *)
Definition padding (offset align : Z) : Z :=
  if offset =? 0 then 0 else Z.land (u64 (- offset)) (u64 (align - 1)).

(** One iteration of the member loop, /repo/src/evaluate.c:2217-2264.  [offset] is an int,
    [max_member_sz] a size_t. *)
Definition layout_member (l : Z) (kind : compound_type) (acc : Z * Z) (m : mdecl) : M (Z * Z) :=
  let '(offset, max_sz) := acc in
  push_ctx "Compound Declaration" ;;
  id <- ev (T_DECL (m_lbl m) (m_specs m) (m_decl m)) ;;
  lv <- resolve_identifier_current id ;;
  size <- get_size_of_type lv ;;
  align <- get_alignment_for_type lv ;;
  upd_comp l (set_offset (m_lbl m) (u64 (offset + padding offset align))) ;;
  pop_ctx ;;
  ret (match kind with
       | sstruct => (smod 32 (offset + padding offset align + size), max_sz)
       | uunion => (0, Z.max max_sz size)
       end).

(** [eval_decl_compound], /repo/src/evaluate.c:2171-2274. *)
Definition eval_decl_compound (t : tree) : M tree :=
  s <- get ;;
  match view_comp s t with
  | None => ub
  | Some c =>
      if no_decls c then
        (r <- resolve_compound c true ;;
         match r with NULL => handle_forward_decl c | _ => ret r end)
      else
        (t' <- match cd_id c with
               | NULL => ret t
               | _ =>
                   fd <- resolve_compound c false ;;
                   match fd with
                   | NULL => map_compound c t ;; ret t
                   | _ => match comp_label fd with
                          | Some l => set_comp l c ;; ret fd
                          | None => ub
                          end
                   end
               end ;;
         s <- get ;;
         match view_comp s t', comp_label t' with
         | Some c', Some l =>
             if cd_exp c' then ret t' else
             (tick E ;;
              ms <- expand_decl_chain (cd_decls c') ;;
              set_comp l (mkcomp (cd_type c') (cd_id c') (cd_decls c') true ms 0 false) ;;
              r <- foldM (layout_member l (cd_type c')) (0, 0) ms ;;
              upd_comp l (fun c => mkcomp (cd_type c) (cd_id c) (cd_decls c) (cd_split c) (cd_mem c)
                                     (match cd_type c' with sstruct => u64 (fst r) | uunion => snd r end)
                                     true) ;;
              ret t')
         | _, _ => ub
         end)
  end.

(** [eval_enumerator], /repo/src/evaluate.c:2276-2323; ENUMTYPE is D_T_UINT (tree.h:60). *)
Definition enum_member (enum_val : Z) (e : tree) : M Z :=
  tick E ;;
  '(id, v) <- match e with
              | T_IDENTIFIER _ => ret (e, enum_val)
              | T_ASSIGN l lhs rhs =>
                  z <- comparable rhs ;;
                  s <- get ;;
                  ret (assign_lhs s l lhs, (mpz_get_ui z) mod 2 ^ 32)
              | NULL => ub
              | _ => die
              end ;;
  map_identifier id (T_INTEGER v) ;;
  ret ((v + 1) mod 2 ^ 32).
(** /repo/src/evaluate.c:2276-2323 *)
Definition eval_enumerator (name enums : tree) : M tree :=
  tick E ;;
  match enums with
  | NULL => ev name
  | _ =>
      (match name with NULL => ret tt | _ => map_identifier name (D_T D_T_UINT) end) ;;
      foldM enum_member 0 (chain_elems enums) ;;
      ret (D_T D_T_UINT)
  end.

(** [eval_comp_access], /repo/src/evaluate.c:2325-2337. *)
Definition eval_comp_access (obj member : tree) : M tree :=
  left <- ev obj ;;
  match left with
  | T_LIVE_COMPOUND _ ms _ =>
      match member with
      | T_IDENTIFIER x => ret (resolve_id x ms)
      | _ => die
      end
  | _ => die
  end.

(** [eval_repl], /repo/src/evaluate.c:2339-2344: each line typed is evaluated
    (repl.c:457-485). *)
Definition eval_repl : M tree :=
  s <- get ;;
  iterM (fun l => ev l ;; ret tt) (e_repl E s) ;;
  ret NULL.

(** ** Pointers *)

(** [eval_array_access], /repo/src/evaluate.c:2346-2383. *)
Definition eval_array_access (obj idx : tree) : M tree :=
  array <- ev obj ;;
  index <- ev idx ;;
  match array with
  | T_LIVE_VAR type a _ _ =>
      match type with
      | D_T_PTR base_type =>
          index <- lv_to_int index ;;
          match index with
          | T_INTEGER z =>
              base <- load a 8 ;;
              len <- get_size_of_type base_type ;;
              p <- make_live_var_addr ;;
              store p (le_bytes 8 (base + len * mpz_get_ui z)) ;;
              tick E ;;
              ev (T_DEREF (live_var type p))
          | NULL => ub
          | _ => die
          end
      | _ => die
      end
  | _ => die
  end.

(** [eval_sizeof], /repo/src/evaluate.c:2399-2442, get_ctype_size 2385-2397. *)
Definition eval_sizeof (exp : tree) : M tree :=
  e <- ev exp ;;
  a <- make_live_var_addr ;;
  s <- get ;;
  let fin n := store a (le_bytes 8 n) ;; ret (live_var (D_T D_T_ULONG) a) in
  let of_type type :=
    match type with
    | D_T c => fin (csize c)
    | D_T_PTR _ => fin 8
    | _ => match view_comp s type with
           | Some c => if cd_exp c then fin (cd_sz c) else abort
           | None => die
           end
    end in
  match e with
  | T_LIVE_VAR (D_T_PTR _) _ true n => fin n
  | T_LIVE_VAR type _ _ _ => of_type type
  | T_LIVE_COMPOUND decl _ _ => of_type decl
  | T_POINTER _ => fin 8
  | T_ARRAY_TYPE base sz => tick E ;; n <- get_array_size sz base ;; fin n
  | _ => of_type e
  end.

(** [eval_type_specifier], /repo/src/evaluate.c:2444-2460. *)
Definition eval_type_specifier (specs decl : tree) : M tree :=
  t0 <- resolve_specs specs ;;
  s <- get ;;
  type <- (if is_T_IDENTIFIER t0 || is_T_DECL_COMPOUND s t0 then ev t0 else ret t0) ;;
  tick E ;;
  ret (snd (resolve_ptr_type decl type)).

(** One parameter in [get_entry_point_for_fn], /repo/src/function-call.c:173-194. *)
Definition closure_type (d : tree) : M tree :=
  match d with
  | T_DECL _ specs decls =>
      t0 <- resolve_specs specs ;;
      let '(declarator, ty) := resolve_ptr_type decls t0 in
      if is_T_IDENTIFIER declarator
      then get_ffi_type ty ;; ret ty
      else die
  | _ => die
  end.

(** [get_entry_point_for_fn], /repo/src/function-call.c:160-215; the code address of the
    closure is a fresh block. *)
Definition get_entry_point_for_fn (fn : tree) : M Z :=
  tick E ;;
  match fn with
  | T_FN _ args ret_type _ =>
      types <- mapM closure_type (chain_elems args) ;;
      if Nat.leb 32 (List.length types) then die else
      ((if is_D_T_VOID ret_type then ret tt else get_ffi_type ret_type ;; ret tt) ;;
       code <- malloc E 1 ;;
       modify (set_closures (fun l => mkclosure code fn types :: l)) ;;
       ret code)
  | _ => ub
  end.

(** [handle_addr_fn_def], /repo/src/evaluate.c:2462-2474. *)
Definition handle_addr_fn_def (fn : tree) : M tree :=
  tick E ;;
  a <- make_live_var_addr ;;
  code <- get_entry_point_for_fn fn ;;
  store a (le_bytes 8 code) ;;
  ret (live_var (D_T_PTR fn) a).

(** [eval_expr_list], /repo/src/evaluate.c:2476-2484. *)
Definition eval_expr_list (chain : tree) : M tree :=
  foldM (fun _ e => ev e) NULL (chain_elems chain).

(** [eval_addr], /repo/src/evaluate.c:2486-2521. *)
Definition eval_addr (exp : tree) : M tree :=
  e <- ev exp ;;
  match e with
  | T_FN _ _ _ _ => handle_addr_fn_def e
  | T_LIVE_VAR type va is_array _ =>
      addr <- (if is_array then load va 8 else ret va) ;;
      tick E ;;
      a <- make_live_var_addr ;;
      store a (le_bytes 8 addr) ;;
      ret (live_var (D_T_PTR type) a)
  | T_LIVE_COMPOUND decl _ base =>
      tick E ;;
      a <- make_live_var_addr ;;
      store a (le_bytes 8 base) ;;
      ret (live_var (D_T_PTR decl) a)
  | _ => die
  end.

(** [eval_deref], /repo/src/evaluate.c:2523-2547. *)
Definition eval_deref (exp : tree) : M tree :=
  e <- ev exp ;;
  match e with
  | T_LIVE_VAR (D_T_PTR new_type) a _ _ =>
      p <- load a 8 ;;
      s <- get ;;
      if is_T_DECL_COMPOUND s new_type then k_inst k new_type p
      else tick E ;; ret (live_var new_type p)
  | _ => die
  end.

(** ** Headers *)

(** [eval_cpp_include], /repo/src/evaluate.c:2549-2596.  Preprocessing and parsing are given
    by the environment. *)
Definition eval_cpp_include (str : string) : M tree :=
  tick E ;;
  modify (set_includes (fun l => l ++ [str])) ;;
  s <- get ;;
  match e_include E (includes s) with
  | None => die
  | Some head =>
      push_ctx "Include file declarations" ;;
      modify (set_incl None) ;;
      evaluate_stmts head ;;
      c <- top ;;
      modify (set_incl (Some c)) ;;
      pop_ctx ;;
      ret NULL
  end.

(** ** Dispatch *)

(** [__evaluate_1], /repo/src/evaluate.c:2635-2713. *)
Definition evaluate_1 (t : tree) : M tree :=
  match t with
  | NULL => ret NULL
  | T_IDENTIFIER _ => eval_identifier t
  | T_FN_CALL id args => eval_fn_call id args
  | T_FN _ _ _ _ => ret t
  | T_DECL l specs decls => fun s =>
      match zfind l (statics s) with
      | Some (idmap, _) => eval_evaluator_ctx idmap s
      | None => eval_decl l specs decls s
      end
  | T_ASSIGN l lhs rhs => eval_assign l lhs rhs
  | T_FLOAT _ _ | T_INTEGER _ | T_STRING _ => ret t
  | T_P_INC e => eval_post 1 e
  | T_P_DEC e => eval_post (-1) e
  | T_INC e => eval_pre 1 e
  | T_DEC e => eval_pre (-1) e
  | T_BINOP op l r => eval_binop op l r
  | T_NEGATE e => eval_negate e
  | T_ONES_COMP e => eval_ones_comp e
  | T_COMMA l r => eval_comma l r
  | T_CMP op l r => eval_cmp op l r
  | T_L_OR l r => eval_logic_or l r
  | T_L_AND l r => eval_logic_and l r
  | T_CAST ty e => eval_cast ty e
  | T_LIVE_VAR _ _ _ _ | T_LIVE_COMPOUND _ _ _ => ret t
  | T_SPEC T_EXTERN | T_SPEC T_TYPEDEF | T_SPEC T_STATIC => ret t
  | T_LOOP_FOR i c a b => eval_loop_for i c a b
  | T_LOOP_WHILE c b => eval_loop_while c b
  | T_INFIX c a b => eval_infix c a b
  | T_IF c a b => eval_if c a b
  | T_RETURN l e => eval_return l e
  | T_BREAK => eval_break
  | T_DECL_COMPOUND _ _ _ _ => eval_decl_compound t
  | E_INCOMP_TYPE _ => fun s =>
      if is_T_DECL_COMPOUND s t then eval_decl_compound t s else Ok NULL s
  | T_ENUMERATOR n es => eval_enumerator n es
  | T_SIZEOF e => eval_sizeof e
  | T_TYPE_SPECIFIER specs d => eval_type_specifier specs d
  | T_COMP_ACCESS o m => eval_comp_access o m
  | T_REPL => eval_repl
  | T_ARRAY_ACCESS o i => eval_array_access o i
  | T_ADDR e => eval_addr e
  | T_DEREF e => eval_deref e
  | T_POINTER _ | D_T_VOID => ret t
  | CPP_INCLUDE str => eval_cpp_include str
  | T_EXT_FUNC fn => eval_ext_func fn
  | T_INSPECT e => eval_inspect e
  | T_EXPR_LIST c => eval_expr_list c
  | D_T _ | D_T_PTR _ => ret t
  | T_SPEC _ | T_EMPTY | T_BITFIELD _ _ | T_ARRAY _ _ | T_ARRAY_TYPE _ _ | T_BUILTIN _
  | T_VARIADIC | CHAIN_HEAD _ => ret NULL
  end.

End Knot.

(** The recursive functions with recursion depth bounded by [n].
    The mutual recursion of /repo/src/evaluate.c:2635-2772. *)
Fixpoint K (n : nat) : knot :=
  match n with
  | O => mkknot (fun _ => out_of_fuel) (fun _ _ => out_of_fuel) (fun _ _ => out_of_fuel)
                (fun _ _ _ => out_of_fuel)
  | S n => let k := K n in
           mkknot (evaluate_1 k) (handle_declarator k) (instantiate_struct k) (ext_step k)
  end.

(** [evaluate_expr], /repo/src/evaluate.c:2769-2772. *)
Definition evaluate_expr (n : nat) (t : tree) : M tree := k_ev (K n) t.

(** [evaluate], /repo/src/evaluate.c:2763-2767.  A longjmp whose target frame is gone is
    undefined behaviour. *)
Definition evaluate (n : nat) (t : tree) : M unit := fun s =>
  match evaluate_stmts (K n) t s with
  | Jmp _ _ => UB
  | r => r
  end.

(** [eval_init_builtins] and [eval_init], /repo/src/evaluate.c:2812-2834. *)
Definition eval_init : M unit :=
  push_ctx "Bultins" ;;
  map_identifier (T_IDENTIFIER "__builtin_va_list") (D_T D_T_INT) ;;
  map_identifier (T_IDENTIFIER "__builtin___strcpy_chk") (T_BUILTIN strcpy_chk) ;;
  map_identifier (T_IDENTIFIER "__builtin___strcat_chk") (T_BUILTIN strcat_chk) ;;
  push_ctx "Toplevel" ;;
  tick E.

End Evaluator.

(** The process state before eval_init: no contexts; memory and external blocks arbitrary. /repo/src/evaluate.c:23-35. *)
Definition start_state (m : Z -> Z) (ext : list block) : state :=
  mkstate m ext [] None [] [] [] [] [] [] 0 [] 0 0.
