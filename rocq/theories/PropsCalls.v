(** Property theorems about calls: C17, C18, C19. *)
From Coq Require Import ZArith List String Bool Lia.
From Verif Require Import CInt Tree SpecResolver State Eval StepsFacts SpecRun RunFacts RunRules SpecExpr SpecTypes
  SpecControl SpecStmt SpecNames NameFacts SpecVars SpecCalls ParamFacts ArgFacts SpecStatic StaticFacts
  TestEnv TestRun TestReturn.
From Verif Require OnceFacts SpecTypesFacts.
Import ListNotations.
Local Open Scope string_scope.
Local Open Scope Z_scope.
Local Open Scope list_scope.

(** * C17: parameters *)

(** A call with as many arguments as parameters binds the parameters, from left to right, in a new
    scope, to new variables that hold the arguments' values.  An argument that mentions the name of
    an earlier parameter sees that parameter. *)
Theorem C17_parameters : forall E rho f name rt body s s1 ps es,
  runs E s f (Ok (T_FN (T_IDENTIFIER name) (CHAIN_HEAD (map param_decl ps)) rt body) s1) -> body <> NULL ->
  List.length es = List.length ps -> Forall param_ok ps -> NoDup (map p_name ps) ->
  (forall p, In p ps -> zfind (p_label p) (statics s1) = None) -> new_nodes_plain s1 ->
  Forall computed es -> reads (fun y => number E s1 (lookup s1 y) (rho y)) [] ps es ->
  let args := CHAIN_HEAD (map syntax es) in
  out_of_memory E s (T_FN_CALL f args) 16 \/
  (exists s', no_value rho ps es /\ runs E s (T_FN_CALL f args) (Abort s')) \/
  exists s2 bs ws, entered E name (CHAIN_HEAD (map param_decl ps)) args s1 s2 /\ map fst bs = ps /\
    stack s2 = scope_params (new_scope (fresh s1) name) bs :: stack s1 /\
    passes rho ps es ws /\ binds E s1 bs ws s2.
Proof. exact parameters. Qed.
Print Assumptions C17_parameters.

(** The parameter names mean the new variables. *)
Theorem C17_names : forall s c cs bs p a,
  stack s = scope_params c bs :: cs -> c_idmap c = [] -> NoDup (map p_name (map fst bs)) ->
  In (p, a) bs -> means s (p_name p) (T_LIVE_VAR (D_T (p_type p)) a false 0).
Proof. exact param_means. Qed.
Print Assumptions C17_names.

(** If no argument mentions the name of an earlier parameter, the values are those of the arguments
    in the caller. *)
Theorem C17_without_capture : forall rho ps es ws, no_capture [] ps es -> passes rho ps es ws ->
  exists vs, Forall2 (fun e v => denote rho e = Some v) es vs /\
    Forall2 (fun pv w => received (p_type (fst pv)) (snd pv) w) (combine ps vs) ws.
Proof. exact passes_no_capture. Qed.
Print Assumptions C17_without_capture.

(** The value of a call of a function whose body is [return e;], executed for the first time. *)
Theorem C17_call_value : forall E rho f name rt l e s s1 ps es, reachable E s ->
  runs E s f (Ok (T_FN (T_IDENTIFIER name) (CHAIN_HEAD (map param_decl ps)) rt (CHAIN_HEAD [T_RETURN l (syntax e)])) s1) ->
  List.length es = List.length ps -> Forall param_ok ps -> NoDup (map p_name ps) ->
  (forall p, In p ps -> zfind (p_label p) (statics s1) = None) -> new_nodes_plain s1 -> zfind l (ov_ret s1) = None ->
  Forall computed es -> computed e -> reads (fun y => number E s1 (lookup s1 y) (rho y)) [] ps es ->
  (forall y, mentions e y -> In y (map p_name ps) \/ number E s1 (lookup s1 y) (rho y)) ->
  let call := T_FN_CALL f (CHAIN_HEAD (map syntax es)) in
  out_of_memory E s call 16 \/
  (exists s', no_value rho ps es /\ runs E s call (Abort s')) \/
  exists ws, passes rho ps es ws /\
    match denote (body_vars rho ps ws) e with
    | Some v => exists s', runs E s call (Ok (T_INTEGER v) s') /\ stack s' = stack s1
    | None => exists s', runs E s call (Abort s')
    end.
Proof. exact call_value. Qed.
Print Assumptions C17_call_value.

(** [int a = 5; int f(int a, short b) { return a * 10 + b; }] *)
Definition pa : param := mkparam (-11) [T_INT_TS] D_T_INT "a".
Definition pb : param := mkparam (-12) [T_SHORT_TS] D_T_SHORT "b".
Definition f_body : expr := Bin ADD (Bin MUL (Var "a") (Lit 10)) (Var "b").
Definition f_tree : tree :=
  T_FN (id "f") (CHAIN_HEAD (map param_decl [pa; pb])) (D_T D_T_INT) (CHAIN_HEAD [T_RETURN (-13) (syntax f_body)]).
Definition with_f : state :=
  after [init_int (-1) "a" (num 5);
         T_DECL (-2) int_specs (CHAIN_HEAD [T_FN (id "f") (CHAIN_HEAD (map param_decl [pa; pb])) NULL
            (CHAIN_HEAD [T_RETURN (-13) (syntax f_body)])])].

Lemma new_nodes_plain_b s : forallb (fun e => fst e <? fresh s) (ov_asn s) = true -> new_nodes_plain s.
Proof.
  intros H l Hl. induction (ov_asn s) as [|[k v] m IH]; [reflexivity|]. cbn in H. apply andb_true_iff in H as [H1 H2].
  apply Z.ltb_lt in H1. cbn. destruct (Z.eqb_spec l k); [lia|]. apply IH, H2.
Qed.

(** The call [f(3, 70000 + a)]: the second argument sees the parameter [a], which is 3, not the
    variable of the caller, which is 5; 70003 is reduced to a short. *)
Definition f_args : list expr := [Bin ADD (Lit 3) (Lit 0); Bin ADD (Lit 70000) (Var "a")].
Example C17_nontrivial :
  reachable env0 with_f /\ runs env0 with_f (id "f") (Ok f_tree with_f) /\
  Forall param_ok [pa; pb] /\ NoDup (map p_name [pa; pb]) /\ new_nodes_plain with_f /\ zfind (-13) (ov_ret with_f) = None /\
  (forall p, In p [pa; pb] -> zfind (p_label p) (statics with_f) = None) /\
  Forall computed f_args /\ reads (fun y => number env0 with_f (lookup with_f y) 5) [] [pa; pb] f_args /\
  passes (fun _ => 5) [pa; pb] f_args [3; 4467] /\
  denote (body_vars (fun _ => 5) [pa; pb] [3; 4467]) f_body = Some 4497 /\
  value (outcome with_f (T_FN_CALL (id "f") (CHAIN_HEAD (map syntax f_args)))) = Some (num 4497).
Proof.
  assert (Hf : lookup with_f "f" = f_tree) by (vm_compute; reflexivity).
  assert (Hn : numberb env0 with_f (lookup with_f "a") 5 = true) by (vm_compute; reflexivity).
  assert (Hp : forallb (fun e => fst e <? fresh with_f) (ov_asn with_f) = true) by (vm_compute; reflexivity).
  assert (Hret : zfind (-13) (ov_ret with_f) = None) by (vm_compute; reflexivity).
  assert (Hst : map (fun p => zfind (p_label p) (statics with_f)) [pa; pb] = [None; None]) by (vm_compute; reflexivity).
  assert (Hv : value (outcome with_f (T_FN_CALL (id "f") (CHAIN_HEAD (map syntax f_args)))) = Some (num 4497)) by (vm_compute; reflexivity).
  assert (Hr : reachable env0 with_f) by apply reachable_after.
  revert Hf Hn Hp Hret Hst Hv Hr. generalize with_f. intros s Hf Hn Hp Hret Hst Hv Hr.
  split; [exact Hr|]. split; [apply innermost; split; [apply means_lookup; [discriminate|exact Hf]|reflexivity]|].
  split.
  { repeat apply Forall_cons; [| |apply Forall_nil]; (split; [apply SpecTypesFacts.resolve_type; reflexivity|]);
      (split; [reflexivity|]); repeat split; cbn; intuition discriminate. }
  split. { repeat constructor; cbn; intuition discriminate. }
  split; [apply new_nodes_plain_b, Hp|]. split; [exact Hret|].
  split. { cbn [map] in Hst. injection Hst as H1 H2. intros p [<-|[<-|[]]]; assumption. }
  split; [repeat constructor|].
  split.
  { split; [intros y []; contradiction|]. split; [|exact I]. intros y [[]|<-]. left. left. reflexivity. }
  split. { cbn. split; [exists 3; split; [reflexivity|]|split; [exists 70003; split; [reflexivity|]|exact I]].
    - exists 3. split; [split; [exists 0; reflexivity|lia]|]. split; [exists 0; reflexivity|cbn; lia].
    - exists 70003. split; [split; [exists 0; reflexivity|lia]|]. split; [exists (-1); reflexivity|cbn; lia]. }
  split; [reflexivity|exact Hv].
Qed.

(** * C18: numbers of arguments *)

(** A function that declares parameters stops when called with another number of arguments; no
    argument has been evaluated, only the scope of the call exists. *)
Theorem C18_count_mismatch : forall E f args name params rt body s s1,
  runs E s f (Ok (T_FN (T_IDENTIFIER name) params rt body) s1) -> body <> NULL -> params <> NULL ->
  List.length (chain_elems args) <> List.length (chain_elems params) ->
  runs E s (T_FN_CALL f args) (Die (open_activation E name s1)).
Proof. exact count_mismatch. Qed.
Print Assumptions C18_count_mismatch.

(** The arguments of a function declared with [()] do not matter. *)
Theorem C18_no_parameters : forall E f args args' name rt body s s1 r,
  runs E s f (Ok (T_FN (T_IDENTIFIER name) NULL rt body) s1) -> body <> NULL ->
  (runs E s (T_FN_CALL f args) r <-> runs E s (T_FN_CALL f args') r).
Proof. intros. split; eapply no_params; eauto. Qed.
Print Assumptions C18_no_parameters.

(** A function declared with [(void)] cannot be called: neither without arguments nor with one. *)
Theorem C18_void : forall E f args name l rt body s s1 r,
  runs E s f (Ok (T_FN (T_IDENTIFIER name) (CHAIN_HEAD [T_DECL l (CHAIN_HEAD [T_SPEC T_VOID_TS]) NULL]) rt body) s1) ->
  body <> NULL ->
  (forall x v s2, In x (chain_elems args) -> runs E (open_activation E name s1) x (Ok v s2) ->
     zfind l (statics s2) = None /\ new_nodes_plain s2) ->
  runs E s (T_FN_CALL f args) r -> stops r.
Proof. exact void_params. Qed.
Print Assumptions C18_void.

(** [f] of C17 has two parameters; [int g() { return 6; }]; [int h(void) { return 6; }].  The call
    [g(1 / 0)] does not divide. *)
Definition with_gh : state :=
  after [fn_int (-1) "g" NULL [T_RETURN (-2) (num 6)];
         fn_int (-3) "h" (CHAIN_HEAD [T_DECL (-4) (specs [T_VOID_TS]) NULL]) [T_RETURN (-5) (num 6)];
         fn_int (-6) "f" (CHAIN_HEAD (map param_decl [pa; pb])) [T_RETURN (-7) (id "a")]].
Example C18_nontrivial :
  lookup with_gh "f" = T_FN (id "f") (CHAIN_HEAD (map param_decl [pa; pb])) (D_T D_T_INT) (CHAIN_HEAD [T_RETURN (-7) (id "a")]) /\
  lookup with_gh "g" = T_FN (id "g") NULL (D_T D_T_INT) (CHAIN_HEAD [T_RETURN (-2) (num 6)]) /\
  lookup with_gh "h" = T_FN (id "h") (CHAIN_HEAD [T_DECL (-4) (specs [T_VOID_TS]) NULL]) (D_T D_T_INT)
    (CHAIN_HEAD [T_RETURN (-5) (num 6)]) /\
  kind_of (outcome with_gh (call "f" [num 1])) = KDie /\
  value (outcome with_gh (call "g" [T_BINOP DIV (num 1) (num 0)])) = Some (num 6) /\
  value (outcome with_gh (call "g" [])) = Some (num 6) /\
  kind_of (outcome with_gh (call "h" [])) = KDie /\
  kind_of (outcome with_gh (call "h" [num 1])) = KDie /\
  (forall x v s2, In x (chain_elems (CHAIN_HEAD [num 1])) -> runs env0 (open_activation env0 "h" with_gh) x (Ok v s2) ->
     zfind (-4) (statics s2) = None /\ new_nodes_plain s2).
Proof.
  split; [vm_compute; reflexivity|]. split; [vm_compute; reflexivity|]. split; [vm_compute; reflexivity|].
  split; [vm_compute; reflexivity|]. split; [vm_compute; reflexivity|]. split; [vm_compute; reflexivity|].
  split; [vm_compute; reflexivity|]. split; [vm_compute; reflexivity|].
  assert (H1 : zfind (-4) (statics with_gh) = None) by (vm_compute; reflexivity).
  assert (H2 : ov_asn with_gh = []) by (vm_compute; reflexivity).
  revert H1 H2. generalize with_gh. intros s H1 H2 x v s2 [<-|[]] H.
  assert (Hi : runs env0 (open_activation env0 "h" s) (num 1) (Ok (num 1) (open_activation env0 "h" s)))
    by (apply (runs_intro _ _ _ _ 1%nat); [reflexivity|discriminate]).
  pose proof (runs_fun _ _ _ _ _ H Hi) as Hf. injection Hf as _ ->.
  split; [exact H1|]. intros l _. change (ov_asn (open_activation env0 "h" s)) with (ov_asn s). rewrite H2. reflexivity.
Qed.

(** * C19: static variables *)

(** The first execution of [static specs x = e;] makes a variable, whose storage belongs to the
    declaration, and initialises it. *)
Theorem C19_first : forall E rho e l specs ct al x s c cs, zfind l (statics s) = None -> names_type specs (D_T ct) ->
  integer_type ct = true -> In T_STATIC specs -> ~ In T_TYPEDEF specs -> ~ In T_EXTERN specs ->
  stack s = c :: cs -> ~ In x (map fst (c_idmap c)) -> plain s al (T_IDENTIFIER x) -> computed e -> ~ mentions e x ->
  (forall y, mentions e y -> number E s (lookup s y) (rho y)) -> e_rooted E l = true ->
  let d := T_DECL l (CHAIN_HEAD (map T_SPEC specs)) (CHAIN_HEAD [T_ASSIGN al (T_IDENTIFIER x) (syntax e)]) in
  out_of_memory E s d 16 \/
  match denote rho e with
  | Some v => exists a s' w, runs E s d (Ok (T_IDENTIFIER x) s') /\ static_made E s l x (D_T ct) a s' /\
      static_entry s' l [(x, T_LIVE_VAR (D_T ct) a false 0)] [a] /\ means s' x (T_LIVE_VAR (D_T ct) a false 0) /\
      clipped v w /\ wraps ct w (value_at s' ct a)
  | None => exists s', runs E s d (Abort s')
  end.
Proof. exact static_first. Qed.
Print Assumptions C19_first.

(** Every later execution of the declaration only makes the names available again: they mean the
    same variables, nothing is evaluated and no memory is written. *)
Theorem C19_again : forall E l m al specs decls s c cs, static_entry s l m al -> stack s = c :: cs ->
  NoDup (map fst m) -> (forall x, In x (map fst m) -> ~ In x (map fst (c_idmap c))) ->
  exists s', runs E s (T_DECL l specs decls) (Ok (last (map (fun e => T_IDENTIFIER (fst e)) m) NULL) s') /\
    names_added E s m s'.
Proof. exact static_again. Qed.
Print Assumptions C19_again.

(** Any successful static declaration, of something other than a function body, is recorded,
    and the names recorded are those it added to the scope. *)
Theorem C19_recorded : forall E l specs decls s v s', zfind l (statics s) = None ->
  In (T_SPEC T_STATIC) (chain_elems specs) -> ~ In (T_SPEC T_TYPEDEF) (chain_elems specs) ->
  ~ In (T_SPEC T_EXTERN) (chain_elems specs) ->
  decls <> NULL -> (forall i p r b, In (T_FN i p r b) (chain_elems decls) -> b = NULL) ->
  runs E s (T_DECL l specs decls) (Ok v s') ->
  exists m al, static_entry s' l m al /\ exists c cs, stack s' = scope_names c m :: cs.
Proof.
  intros E l specs decls s v s' Hl H1 H2 H3 Hd Hf H. eapply static_recorded; eauto.
  - destruct decls; try reflexivity. congruence.
  - revert Hf. generalize (chain_elems decls). clear. induction l as [|x l IH]; intros Hf; [reflexivity|].
    assert (IH' : static_fn l = None) by (apply IH; intros i p r b Hin; apply (Hf i p r b); right; exact Hin).
    destruct x; cbn; try exact IH'. rewrite (Hf _ _ _ _ (or_introl eq_refl)). exact IH'.
Qed.
Print Assumptions C19_recorded.

(** The record does not change, whatever is executed. *)
Theorem C19_record_kept : forall E l m al s t r s', static_entry s l m al ->
  runs E s t r -> final r = Some s' -> static_entry s' l m al.
Proof. intros E l m al. exact (OnceFacts.static_kept_runs E l (m, al)). Qed.
Print Assumptions C19_record_kept.

(** The storage is never freed, if the declaration is part of the program that is being run. *)
Theorem C19_storage_kept : forall E l m al s s' a n, reachable E s -> steps E s s' ->
  In (l, (m, al)) (statics s) -> e_rooted E l = true -> In a al -> allocated s a n -> allocated s' a n.
Proof. exact static_storage. Qed.
Print Assumptions C19_storage_kept.

(** [{ static short n = 70000 + 2; y = n + 0; n = n + 1; }], executed twice after [int y = 1;]. *)
Definition static_n : tree :=
  T_DECL (-5) (specs [T_STATIC; T_SHORT_TS]) (CHAIN_HEAD [T_ASSIGN (-6) (id "n") (T_BINOP ADD (num 70000) (num 2))]).
Definition static_block : tree :=
  T_IF (num 1) (CHAIN_HEAD [static_n; T_ASSIGN (-7) (id "y") (T_BINOP ADD (id "n") (num 0));
                            T_ASSIGN (-8) (id "n") (T_BINOP ADD (id "n") (num 1))]) NULL.
Definition y1 : state := after [init_int (-1) "y" (num 1)].
Definition y2 : state := final_state (outcome y1 static_block).
Definition y3 : state := final_state (outcome y2 static_block).
Example C19_nontrivial : exists c cs c' cs',
  reachable env0 y1 /\ reachable env0 y2 /\ zfind (-5) (statics y1) = None /\ names_type [T_STATIC; T_SHORT_TS] (D_T D_T_SHORT) /\
  stack y1 = c :: cs /\ ~ In "n" (map fst (c_idmap c)) /\ plain y1 (-6) (id "n") /\ e_rooted env0 (-5) = true /\
  static_entry y2 (-5) [("n", T_LIVE_VAR (D_T D_T_SHORT) 4144 false 0)] [4144] /\
  stack y2 = c' :: cs' /\ ~ In "n" (map fst (c_idmap c')) /\ allocated y2 4144 16 /\
  numberb env0 y2 (lookup y2 "y") 4466 = true /\ numberb env0 y3 (lookup y3 "y") 4467 = true /\
  static_entry y3 (-5) [("n", T_LIVE_VAR (D_T D_T_SHORT) 4144 false 0)] [4144].
Proof.
  assert (Hr1 : reachable env0 y1) by apply reachable_after.
  assert (Hr2 : reachable env0 y2) by (apply (reachable_outcome y1 static_block); exact Hr1).
  assert (H1 : zfind (-5) (statics y1) = None) by (vm_compute; reflexivity).
  assert (H2 : hd (Some []) (map (fun c => Some (map fst (c_idmap c))) (stack y1)) = Some ["y"]) by (vm_compute; reflexivity).
  assert (H3 : zfind (-6) (ov_asn y1) = None) by (vm_compute; reflexivity).
  assert (H4 : static_entry y2 (-5) [("n", T_LIVE_VAR (D_T D_T_SHORT) 4144 false 0)] [4144]) by (vm_compute; reflexivity).
  assert (H5 : hd (Some []) (map (fun c => Some (map fst (c_idmap c))) (stack y2)) = Some ["y"]) by (vm_compute; reflexivity).
  assert (H6 : existsb (fun b => (b_base b =? 4144) && (b_size b =? 16)) (blocks y2) = true) by (vm_compute; reflexivity).
  assert (H7 : numberb env0 y2 (lookup y2 "y") 4466 = true) by (vm_compute; reflexivity).
  assert (H8 : numberb env0 y3 (lookup y3 "y") 4467 = true) by (vm_compute; reflexivity).
  assert (H9 : static_entry y3 (-5) [("n", T_LIVE_VAR (D_T D_T_SHORT) 4144 false 0)] [4144]) by (vm_compute; reflexivity).
  revert H1 H2 H3 H4 H5 H6 H7 H8 H9 Hr1 Hr2. generalize y1 y2 y3. intros s1 s2 s3 H1 H2 H3 H4 H5 H6 H7 H8 H9 Hr1 Hr2.
  destruct (stack s1) as [|c cs] eqn:E1; [discriminate H2|]. destruct (stack s2) as [|c' cs'] eqn:E2; [discriminate H5|].
  cbn [map hd] in H2, H5. injection H2 as H2. injection H5 as H5.
  exists c, cs, c', cs'. split; [exact Hr1|]. split; [exact Hr2|]. split; [exact H1|].
  split; [apply SpecTypesFacts.resolve_type; reflexivity|]. split; [reflexivity|]. split; [rewrite H2; cbn; intuition discriminate|].
  split; [left; exact H3|]. split; [reflexivity|]. split; [exact H4|]. split; [reflexivity|].
  split; [rewrite H5; cbn; intuition discriminate|].
  split. { apply existsb_exists in H6 as ([b n tr] & Hb & H6). apply andb_true_iff in H6 as [Ha Hn]. cbn in Ha, Hn.
    apply Z.eqb_eq in Ha, Hn. subst. exists tr. exact Hb. }
  split; [exact H7|]. split; [exact H8|exact H9].
Qed.

(** A declaration that is not reachable from the collector's roots, such as one typed at the
    prompt, can lose its storage while its record still names it.  In this environment the
    collector runs late. *)
Definition env_unrooted : env :=
  mkenv (e_malloc env0) (fun s => if ticks s <=? 15 then [] else map b_base (blocks s)) (e_gc_cl env0) (fun _ => false)
    (e_dlsym env0) (e_alloca env0) (e_atexit env0) (e_at_quick_exit env0) (e_ext env0) (e_include env0) (e_repl env0)
    (e_fp_lit env0) (e_fp_cast env0) (e_fp_add env0) (e_fp_sub env0).
Definition u0 : state := final_state (eval_init env_unrooted (start_state (fun _ => 170) [])).
Definition u_at (n : nat) : state := final_state (k_ev (K env_unrooted n) static_n u0).
Definition u1 : state := u_at 60.
Definition u_then (n : nat) : res tree := k_ev (K env_unrooted n) (T_BINOP ADD (num 1) (num 1)) u1.
Definition u2 : state := final_state (u_then 60).
Theorem C19_unrooted_refuted : exists E l m al s t v s' a n, reachable E s /\ runs E s t (Ok v s') /\
  In (l, (m, al)) (statics s) /\ In a al /\ allocated s a n /\ static_entry s' l m al /\ ~ allocated s' a n.
Proof.
  exists env_unrooted, (-5), [("n", T_LIVE_VAR (D_T D_T_SHORT) 4112 false 0)], [4112], u1, (T_BINOP ADD (num 1) (num 1)),
    (num 2), u2, 4112, 16.
  assert (H0 : value (eval_init env_unrooted (start_state (fun _ => 170) [])) = Some tt) by (vm_compute; reflexivity).
  assert (H1 : value (k_ev (K env_unrooted 60) static_n u0) = Some (id "n")) by (vm_compute; reflexivity).
  assert (H2 : value (u_then 60) = Some (num 2)) by (vm_compute; reflexivity).
  assert (H3 : statics u1 = [(-5, ([("n", T_LIVE_VAR (D_T D_T_SHORT) 4112 false 0)], [4112]))]) by (vm_compute; reflexivity).
  assert (H4 : blocks u1 = [mkblock 4112 16 true]) by (vm_compute; reflexivity).
  assert (H5 : static_entry u2 (-5) [("n", T_LIVE_VAR (D_T D_T_SHORT) 4112 false 0)] [4112]) by (vm_compute; reflexivity).
  assert (H6 : map b_base (blocks u2) = []) by (vm_compute; reflexivity).
  assert (Hr : reachable env_unrooted u1).
  { assert (Hr0 : reachable env_unrooted u0).
    { apply (reach_init env_unrooted (fun _ => 170) []); [split; constructor|]. unfold u0.
      revert H0. generalize (eval_init env_unrooted (start_state (fun _ => 170) [])).
      intros [[] s| | | | | | | |] H; try discriminate H. reflexivity. }
    eapply reachable_steps; [exact Hr0|]. unfold u1, u_at. revert H1. generalize u0. intros s H1.
    eapply (ev_steps env_unrooted 60 static_n s).
    destruct (k_ev (K env_unrooted 60) static_n s); try discriminate H1. reflexivity. }
  assert (Hx : runs env_unrooted u1 (T_BINOP ADD (num 1) (num 1)) (Ok (num 2) u2)).
  { unfold u2. revert H2. unfold u_then. generalize u1. intros s H2.
    apply (runs_intro _ _ _ _ 60%nat); [|discriminate].
    destruct (k_ev (K env_unrooted 60) (T_BINOP ADD (num 1) (num 1)) s); try discriminate H2.
    injection H2 as ->. reflexivity. }
  revert H3 H4 H5 H6 Hr Hx. generalize u1 u2. intros s s' H3 H4 H5 H6 Hr Hx.
  split; [exact Hr|]. split; [exact Hx|]. split; [rewrite H3; left; reflexivity|]. split; [left; reflexivity|].
  split; [exists true; rewrite H4; left; reflexivity|]. split; [exact H5|].
  intros [tr Hb]. apply (in_map b_base) in Hb. rewrite H6 in Hb. exact Hb.
Qed.
Print Assumptions C19_unrooted_refuted.
