(** Proofs about calls of external functions. *)
From Coq Require Import ZArith Znumtheory List String Bool Lia.
From Verif Require Import CInt CIntFacts Tree SpecResolver State Eval MonoFacts StepsFacts EvalInv SpecScope ScopeFacts SpecRun StuckFacts RunFacts RunRules
  SpecExpr ExprFacts SpecControl SpecStmt ControlFacts CallFacts SpecNames NameFacts SpecTypes SpecTypesFacts SpecVars VarFacts SpecPtr PtrFacts SpecEnum EnumFacts SpecStruct StructFacts ObjectFacts SpecExt.
Import ListNotations.
Local Open Scope Z_scope.
Local Open Scope m_scope.
Local Open Scope list_scope.

Section Ext.
Variable E : env.

(** ** The trace *)

Lemma trace_mono s s' : steps E s s' -> exists l, calls_since s s' l.
Proof.
  intros H. induction H as [|? ? H (l & IH) Hs]; [exists []; reflexivity|].
  unfold calls_since in *. destruct Hs; cbn; try (exists l; exact IH).
  exists (e :: l). rewrite IH. reflexivity.
Qed.

Lemma only_new_trace s m s' : only_new E s m s' -> trace s' = trace s.
Proof. intros (_ & _ & R). apply R. Qed.

(** ** Marshalling *)

Definition push_ok (s : state) (n : nat) (v : tree) (P : arg -> Prop) (r : res arg) : Prop :=
  match r with
  | Ok a s' => P a /\ only_new E s [] s' /\ n <> 32%nat
  | Die s' => trace s' = trace s /\ (n = 32%nat \/ ~ passable v)
  | NoMemory m s' => m = 16 /\ refuses E 16 s' /\ trace s' = trace s
  | UB => True
  | _ => False
  end.

Lemma finish n a s v (P : arg -> Prop) s1 : only_new E s [] s1 -> P a ->
  push_ok s n v P ((if Nat.eqb n 32 then die else ret a) s1).
Proof.
  intros N HP. destruct (Nat.eqb_spec n 32); cbn.
  - split; [apply (only_new_trace _ _ _ N)|left; assumption].
  - split; [exact HP|split; assumption].
Qed.

Lemma push_cases n c bits (pr : bool) s v (P : arg -> Prop) : stack s <> [] ->
  P (match (if pr then promotion E c bits else None) with Some (c', w) => AVal (Some c') w | None => AVal (Some c) bits end) ->
  push_ok s n v P (push_arg E n c bits pr s).
Proof.
  intros Hs. unfold push_arg. destruct (if pr then promotion E c bits else None) as [[c' w]|]; intros HP.
  - destruct (make_live_var_new E s Hs) as [(a & s' & H & N & O & M)|H].
    + rewrite (bind_eq _ _ _ _ _ _ _ H).
      destruct (write_new E s a 16 s' (bytes_c c' w) N O) as (W1 & W2 & W3); [rewrite bytes_c_length; destruct c'; cbn; lia|].
      rewrite (bind_eq _ _ _ _ _ _ _ W1). apply finish; auto.
    + unfold bind at 1. rewrite H. cbn. split; [reflexivity|]. split; [|reflexivity]. exact (pst_make_live_var_addr E s 16 _ H).
  - apply finish; [apply only_new_refl, Hs|exact HP].
Qed.

Lemma pushed_var c bits (pr : bool) :
  match (if pr then promotion E (ffi_of c) bits else None) with Some (c', w) => AVal (Some c') w | None => AVal (Some (ffi_of c)) bits end =
  AVal (Some (passed_type pr c)) (match c with D_T_FLOAT => if pr then e_fp_cast E D_T_FLOAT D_T_DOUBLE bits else bits | _ => bits end).
Proof. destruct c, pr; reflexivity. Qed.

Lemma marshal_cases p n v s : stack s <> [] ->
  push_ok s n v (passes E s (in_variadic p n) v) (marshal_arg E p n v s).
Proof.
  intros Hs. unfold marshal_arg. set (pr := match p with Some _ => _ | None => _ end).
  change (in_variadic p n) with pr. clearbody pr.
  assert (Hbad : forall v', ~ passable v' -> push_ok s n v' (passes E s pr v') (die s)).
  { intros v' Hv. cbn. split; [reflexivity|right; exact Hv]. }
  destruct v; try exact I; try (apply Hbad; cbn; tauto).
  - (* T_INTEGER *)
    apply push_cases; [exact Hs|]. replace (match _ with Some _ => _ | None => _ end) with (AVal (Some D_T_INT) (smod 32 (mpz_get_si VAL))).
    + constructor. rewrite smod_32_get_si. apply (conv_wraps D_T_INT).
    + destruct pr; reflexivity.
  - apply push_cases; [exact Hs|]. destruct pr; cbn; constructor.
  - apply finish; [apply only_new_refl, Hs|constructor].
  - (* T_LIVE_VAR *)
    destruct v; try exact I; try (apply Hbad; cbn; tauto).
    + unfold load_scalar, bind at 1. unfold bind at 1, load at 1. destruct (valid s VAL (csize c)) eqn:Hv; [|exact I].
      change (ret ?x s) with (Ok x s). cbv iota beta. apply push_cases; [exact Hs|]. rewrite pushed_var.
      destruct (is_intty c) eqn:Hc.
      * replace (match c with D_T_FLOAT => _ | _ => _ end) with (value_at s c VAL); [apply pass_integer; exact Hc|].
        rewrite value_at_load. unfold load_c. destruct c; try discriminate Hc; reflexivity.
      * apply pass_floating; exact Hc.
    + unfold bind at 1, load at 1. destruct (valid s VAL 8) eqn:Hv; [|exact I]. apply finish; [apply only_new_refl, Hs|]. constructor.
Qed.

Definition marshal_ok (s : state) (p : option nat) (n : nat) (vs : list tree) (r : res (list arg)) : Prop :=
  match r with
  | Ok args s' => passed E p n s vs args s' /\ only_new E s [] s' /\ (n + List.length vs <= 32)%nat
  | Die s' => trace s' = trace s /\ ((32 < n + List.length vs)%nat \/ exists v, In v vs /\ ~ passable v)
  | NoMemory m s' => m = 16 /\ refuses E 16 s' /\ trace s' = trace s
  | UB => True
  | _ => False
  end.

Lemma marshal_all p : forall vs n s, stack s <> [] -> (n <= 32)%nat -> marshal_ok s p n vs (marshal_args E p n vs s).
Proof.
  induction vs as [|v vs IH]; intros n s Hs Hn; cbn [marshal_args].
  - cbn. split; [constructor|]. split; [apply only_new_refl, Hs|lia].
  - pose proof (marshal_cases p n v s Hs) as H. unfold bind at 1.
    destruct (marshal_arg E p n v s) as [a s1| | s1 | | | | |m s1|]; cbn [push_ok] in H; try contradiction; try exact I.
    + destruct H as (H1 & H2 & H3). specialize (IH (S n) s1 (only_new_nonempty _ _ _ _ H2) ltac:(lia)).
      pose proof (only_new_trace _ _ _ H2) as T.
      unfold bind at 1. destruct (marshal_args E p (S n) vs s1) as [args s2| | s2 | | | | |m s2|]; cbn [marshal_ok] in IH; try contradiction; try exact I.
      * destruct IH as (I1 & I2 & I3). cbn [ret marshal_ok]. split; [econstructor; eauto|]. split; [eapply only_new_trans0; eauto|cbn [List.length]; lia].
      * destruct IH as (I1 & I2). cbn [marshal_ok]. split; [congruence|]. destruct I2 as [I2|(w & I2 & I3)].
        -- left. cbn [List.length]. lia.
        -- right. exists w. split; [right; exact I2|exact I3].
      * destruct IH as (I1 & I2 & I3). cbn [marshal_ok]. split; [exact I1|]. split; [exact I2|congruence].
    + destruct H as (H1 & [H2|H2]); cbn [marshal_ok]; (split; [exact H1|]).
      * left. cbn [List.length]. lia.
      * right. exists v. split; [left; reflexivity|exact H2].
    + exact H.
Qed.

(** ** Arguments *)

Definition stopped (s : state) (ts : list tree) (r : res tree) : Prop :=
  exists ts1 t ts2 vs s1 s2, ts = ts1 ++ t :: ts2 /\ evaluated E s ts1 vs s1 /\ only_gc E s1 s2 /\ runs E s2 t r /\ stops r.

Lemma evaluated_gc s s1 ts vs s' : only_gc E s s1 -> evaluated E s1 ts vs s' -> evaluated E s ts vs s'.
Proof.
  intros G H. destruct H.
  - constructor. eapply gc_only_trans; eauto.
  - econstructor; [eapply gc_only_trans; eauto|eassumption|assumption].
Qed.

Lemma stopped_gc s s1 ts r : only_gc E s s1 -> stopped s1 ts r -> stopped s ts r.
Proof.
  intros G (ts1 & t & ts2 & vs & s2 & s3 & H1 & H2 & H3). exists ts1, t, ts2, vs, s2, s3. split; [exact H1|].
  split; [eapply evaluated_gc; eauto|exact H3].
Qed.

Lemma stopped_cons s s1 t v s2 ts r : only_gc E s s1 -> runs E s1 t (Ok v s2) -> stopped s2 ts r -> stopped s (t :: ts) r.
Proof.
  intros G R (ts1 & t' & ts2 & vs & s3 & s4 & H1 & H2 & H3). exists (t :: ts1), t', ts2, (v :: vs), s3, s4.
  split; [rewrite H1; reflexivity|]. split; [econstructor; eauto|exact H3].
Qed.

Lemma ev_runs m t s r : k_ev (K E m) t s = r -> r <> Fuel -> runs E s t r.
Proof. intros H Hr. split; [exact Hr|]. exists m. exact H. Qed.

Lemma args_cases m : forall ts s,
  match mapM (fun a => tick E ;; k_ev (K E m) a) ts s with
  | Ok vs s' => evaluated E s ts vs s'
  | Fuel => True
  | x => exists r, stopped s ts r /\ x = recast r
  end.
Proof.
  induction ts as [|t ts IH]; intros s; cbn [mapM].
  - constructor. apply gc_only_refl.
  - unfold bind at 1. rewrite (bind_eq _ _ _ _ _ _ _ (tick_eq E s)). pose proof (gc_only_tick E s) as G.
    revert G. generalize (after_tick E s). intros s1 G.
    destruct (k_ev (K E m) t s1) as [v s2| | | | | | | |] eqn:Hv.
    1: { apply ev_runs in Hv; [|discriminate]. specialize (IH s2). unfold bind at 1.
         destruct (mapM _ ts s2) as [vs s3| | | | | | | |]; try exact I.
         1: { cbn [ret]. econstructor; eauto. }
         all: destruct IH as (r & IH1 & IH2); exists r; split; [eapply stopped_cons; eauto|];
              destruct r; try discriminate IH2; cbn in *; congruence. }
    all: try exact I.
    all: apply ev_runs in Hv; [|discriminate]; eexists; split;
      [exists [], t, ts, [], s, s1; split; [reflexivity|split; [constructor; apply gc_only_refl|split; [exact G|split; [exact Hv|intros ? ? HH; discriminate HH]]]]|reflexivity].
Qed.

Lemma fn_args_cases m ts s :
  match eval_fn_args E (K E m) (args_tree ts) s with
  | Ok vs s' => evaluated E s ts vs s'
  | Fuel => True
  | x => exists r, stopped s ts r /\ x = recast r
  end.
Proof.
  unfold eval_fn_args. rewrite (bind_eq _ _ _ _ _ _ _ (tick_eq E s)). pose proof (gc_only_tick E s) as G.
  revert G. generalize (after_tick E s). intros s1 G.
  replace (chain_elems (args_tree ts)) with ts by (destruct ts; reflexivity).
  pose proof (args_cases m ts s1) as H. destruct (mapM _ ts s1) as [vs s3| | | | | | | |]; try exact I.
  1: eapply evaluated_gc; eauto.
  all: destruct H as (r & H1 & H2); exists r; split; [eapply stopped_gc; eauto|exact H2].
Qed.

(** ** Calls *)

Lemma ellipsis_position : forall ps p i, ellipsis ps p -> variadic_position i ps = match p with Some q => Some (i + q)%nat | None => None end.
Proof.
  intros ps p i H. destruct H as [ps H|ps qs H].
  - revert i. induction ps as [|t ps IH]; intros i; [reflexivity|]. cbn [variadic_position].
    destruct t; cbn; try (apply IH; intros Hi; apply H; right; exact Hi). exfalso. apply H. left. reflexivity.
  - revert i. induction ps as [|t ps IH]; intros i; cbn [app variadic_position List.length].
    + cbn. f_equal. lia.
    + assert (Hi : ~ In T_VARIADIC ps) by (intros Hi; apply H; right; exact Hi).
      rewrite Nat.add_succ_r. rewrite <- Nat.add_succ_l. rewrite <- (IH Hi (S i)).
      destruct t; try reflexivity. exfalso. apply H. left. reflexivity.
Qed.

Definition bad_result (r : option (tree * Z)) : Prop := match r with Some (ty, _) => ~ object_type ty | None => False end.

(** The second half of do_ext_call, for the proofs. *)
Definition enter (k : knot) (addr : Z) (args : list arg) (rl : option (tree * Z)) (rty : option (option ctype)) : M unit :=
  modify (set_trace (fun t => EvCall addr args :: t)) ;;
  s <- get ;;
  bits <- match find_closure addr s with
          | Some c =>
              match arg_bits args with
              | Some bs => closure_entry E k c bs ;;
                           ret (match e_ext E addr args s 0 with EDone b => b | _ => 0 end)
              | None => unmodelled
              end
          | None =>
              if addr =? e_alloca E
              then match args with AVal _ n :: _ => malloc E (u64 n) | _ => ub end
              else if addr =? 0 then ub
              else k_ext k addr args 0%nat
          end ;;
  match rl, rty with
  | Some (_, a), Some t => store a (ret_bytes t bits)
  | _, _ => ret tt
  end.
Definition result_ffi (rl : option (tree * Z)) : M (option (option ctype)) :=
  match rl with
  | Some (ty, _) => t <- get_ffi_type ty ;; ret (Some t)
  | None => ret None
  end.
Lemma do_ext_call_eq k addr vs rl p : do_ext_call E k addr vs rl p =
  (args <- marshal_args E p 0 vs ;; rty <- result_ffi rl ;; enter k addr args rl rty).
Proof. reflexivity. Qed.

Lemma enter_calls m addr args rl rty s s' : final (enter (K E m) addr args rl rty s) = Some s' ->
  exists l, calls_since s s' (l ++ [EvCall addr args]).
Proof.
  intros Hf. unfold enter in Hf. unfold bind at 1, modify in Hf. set (s5 := set_trace _ s) in Hf.
  assert (St : steps E s5 s').
  { eapply ps_use; [|exact Hf]. destruct (K_steps E m) as (K1 & K2 & K3 & K4).
    apply psteps_bind; [apply psteps_get|intros s6]. apply psteps_bind.
    - destruct (find_closure addr s6).
      + destruct (arg_bits args); [|apply psteps_unmodelled]. apply psteps_bind; [apply psteps_closure_entry; auto|intros; apply psteps_ret].
      + destruct (addr =? e_alloca E); [destruct args as [|[]]; auto using psteps_ub, psteps_malloc|].
        destruct (addr =? 0); auto using psteps_ub.
    - intros bits. destruct rl as [[? ?]|]; [|apply psteps_ret]. destruct rty; auto using psteps_ret, psteps_store. }
  apply trace_mono in St as (l & St). exists l. unfold calls_since in *. rewrite St. cbn [s5 trace set_trace]. rewrite <- app_assoc. reflexivity.
Qed.

Definition ext_outcome (addr : Z) (vs : list tree) (rl : option (tree * Z)) (p : option nat) (s : state) (x : res unit) : Prop :=
  x = UB \/ x = Fuel \/
  (exists s', final x = Some s' /\
    ((exists args s4 l, passed E p 0 s vs args s4 /\ (List.length vs <= 32)%nat /\ calls_since s s' (l ++ [EvCall addr args])) \/
     (x = NoMemory 16 s' /\ refuses E 16 s' /\ trace s' = trace s) \/
     (x = Die s' /\ trace s' = trace s /\ ((32 < List.length vs)%nat \/ (exists v, In v vs /\ ~ passable v) \/ bad_result rl)))).

Lemma ext_call_cases m addr vs rl p s : stack s <> [] -> ext_outcome addr vs rl p s (do_ext_call E (K E m) addr vs rl p s).
Proof.
  intros Hs. rewrite do_ext_call_eq. pose proof (marshal_all p vs 0 s Hs ltac:(lia)) as H. unfold bind at 1.
  destruct (marshal_args E p 0 vs s) as [args s4| | s4 | | | | |k s4|]; cbn [marshal_ok] in H; try contradiction; [| |left; reflexivity|].
  2: { right. right. exists s4. split; [reflexivity|]. right. right. split; [reflexivity|]. tauto. }
  2: { destruct H as (-> & H). right. right. exists s4. split; [reflexivity|]. right. left. split; [reflexivity|]. exact H. }
  destruct H as (H1 & H2 & H3). pose proof (only_new_trace _ _ _ H2) as T.
  assert (Hr : (exists rty, result_ffi rl s4 = Ok rty s4) \/ result_ffi rl s4 = UB \/ (result_ffi rl s4 = Die s4 /\ bad_result rl)).
  { destruct rl as [[ty a]|]; [|left; eexists; reflexivity]. cbn [result_type bad_result].
    destruct ty; cbn; try (left; eexists; reflexivity); right; auto. }
  unfold bind at 1. destruct Hr as [(rty & ->)|[->|(-> & Hb)]].
  - destruct (enter (K E m) addr args rl rty s4) as [| | | | | | | |] eqn:He; [| | | | |left; reflexivity|right; left; reflexivity| |].
    all: right; right; eexists; split; [reflexivity|]; left; exists args, s4;
      destruct (enter_calls m addr args rl rty s4 _ (eq_trans (f_equal final He) eq_refl)) as (l & Hl); exists l;
      (split; [exact H1|]); (split; [cbn in H3; lia|]); unfold calls_since in *; rewrite Hl, T; reflexivity.
  - left. reflexivity.
  - right. right. exists s4. split; [reflexivity|]. right. right. split; [reflexivity|]. split; [exact T|]. right. right. exact Hb.
Qed.

(** The function was entered. *)
Definition entered_with (s : state) (ts : list tree) (p : option nat) (addr : state -> Z) (r : res tree) : Prop :=
  exists vs s2 s3 args s4 l s', evaluated E s ts vs s2 /\ only_new E s2 [] s3 /\ passed E p 0 s3 vs args s4 /\
    (List.length vs <= 32)%nat /\ final r = Some s' /\ calls_since s2 s' (l ++ [EvCall (addr s2) args]).

Lemma evaluated_length s ts vs s' : evaluated E s ts vs s' -> List.length vs = List.length ts.
Proof. induction 1; cbn; congruence. Qed.

Lemma evaluated_reachable s ts vs s' : evaluated E s ts vs s' -> stack s <> [] -> stack s' <> [].
Proof.
  induction 1 as [s s' G|s s1 t v s2 ts vs s' G R _ IH]; intros Hs.
  - rewrite (sg_stack _ _ (proj1 G)). exact Hs.
  - apply IH. apply (drop_last_nonempty E s1); [eapply runs_steps; [exact R|reflexivity]|]. rewrite (sg_stack _ _ (proj1 G)). exact Hs.
Qed.

(** The variable for the result. *)
Lemma ret_lv_cases rt s : stack s <> [] ->
  (exists rl s', make_ret_lv E rt s = Ok rl s' /\ only_new E s [] s' /\ (bad_result rl -> rt <> D_T_VOID /\ ~ object_type rt)) \/
  (exists s', make_ret_lv E rt s = NoMemory 16 s' /\ refuses E 16 s' /\ trace s' = trace s).
Proof.
  intros Hs. unfold make_ret_lv. destruct (is_D_T_VOID rt) eqn:Hv.
  - left. eexists None, s. split; [reflexivity|]. split; [apply only_new_refl, Hs|intros []].
  - destruct (make_live_var_new E s Hs) as [(a & s' & H & N & O & M)|H].
    + left. exists (Some (rt, a)), s'. rewrite (bind_eq _ _ _ _ _ _ _ H). split; [reflexivity|]. split; [exact N|].
      intros Hb. split; [|exact Hb]. intros ->. discriminate Hv.
    + right. exists (after_tick E s). unfold bind at 1. rewrite H. split; [reflexivity|]. split; [|reflexivity].
      exact (pst_make_live_var_addr E s 16 _ H).
Qed.

(** What do_ext_call leaves to the caller. *)
Lemma outcome_call s1 ts vs s2 s3 rl rt p addr m r : evaluated E s1 ts vs s2 -> only_new E s2 [] s3 -> stack s3 <> [] ->
  (bad_result rl -> rt <> D_T_VOID /\ ~ object_type rt) -> r <> UB -> r <> Fuel ->
  (do_ext_call E (K E m) (addr s2) vs rl p ;; ret (ret_lv_tree rl)) s3 = r ->
  not_entered E s1 ts rt r \/ entered_with s1 ts p addr r.
Proof.
  intros Ev N Hs Hb Hub Hr H. pose proof (ext_call_cases m (addr s2) vs rl p s3 Hs) as C. unfold bind at 1 in H.
  pose proof (only_new_trace _ _ _ N) as T.
  revert C H. generalize (do_ext_call E (K E m) (addr s2) vs rl p s3). intros x C H.
  destruct C as [->|[->|(s' & F & C)]]; [congruence|congruence|].
  assert (Fr : final r = Some s').
  { rewrite <- H. destruct x; cbn in *; congruence. }
  destruct C as [(args & s4 & l & C1 & C2 & C3)|[(-> & C1 & C2)|(-> & C1 & C2)]].
  - right. exists vs, s2, s3, args, s4, l, s'. split; [exact Ev|]. split; [exact N|]. split; [exact C1|]. split; [exact C2|]. split; [exact Fr|].
    unfold calls_since in *. rewrite C3, T. reflexivity.
  - left. rewrite <- H. eapply ne_memory; [exact Ev| |exact C1]. unfold calls_since. cbn. congruence.
  - left. rewrite <- H. eapply ne_error; [exact Ev|unfold calls_since; cbn; congruence|]. rewrite <- (evaluated_length _ _ _ _ Ev).
    destruct C2 as [C2|[C2|C2]]; auto.
Qed.

Lemma fn_value m f s v s1 : function E s f v s1 -> forall (g : tree -> M tree) r, r <> Fuel ->
  (f0 <- k_ev (K E m) f ;; f' <- match f0 with T_EXT_FUNC _ => k_ev (K E m) f0 | _ => ret f0 end ;; g f') s = r -> g v s1 = r.
Proof.
  intros H g r Hr Hb. unfold bind at 1 in Hb. destruct H as [H Hn|h s2 H1 H2].
  - destruct (k_ev (K E m) f s) as [v' s'| | | | | | | |] eqn:Hv.
    7: congruence.
    all: apply ev_runs in Hv; [|discriminate]; pose proof (runs_fun _ _ _ _ _ H Hv) as Q; try discriminate Q.
    injection Q as <- <-. replace (match v with T_EXT_FUNC _ => k_ev (K E m) v | _ => ret v end) with (ret v) in Hb; [exact Hb|].
    destruct v; try reflexivity. exfalso. eapply Hn. reflexivity.
  - destruct (k_ev (K E m) f s) as [v' s'| | | | | | | |] eqn:Hv.
    7: congruence.
    all: apply ev_runs in Hv; [|discriminate]; pose proof (runs_fun _ _ _ _ _ H1 Hv) as Q; try discriminate Q.
    injection Q as <- <-. unfold bind at 1 in Hb.
    destruct (k_ev (K E m) (T_EXT_FUNC h) s2) as [v' s'| | | | | | | |] eqn:Hv2.
    7: congruence.
    all: apply ev_runs in Hv2; [|discriminate]; pose proof (runs_fun _ _ _ _ _ H2 Hv2) as Q; try discriminate Q.
    injection Q as <- <-. exact Hb.
Qed.

Lemma named_call f name ps rt ts p s s1 r : stack s1 <> [] ->
  function E s f (T_FN (T_IDENTIFIER name) (args_tree ps) rt NULL) s1 -> e_dlsym E name <> 0 -> ellipsis ps p ->
  runs E s (T_FN_CALL f (args_tree ts)) r -> r <> UB ->
  not_entered E s1 ts rt r \/ entered_with s1 ts p (fun _ => e_dlsym E name) r.
Proof.
  intros Hs Hf Ha Hp H Hub. destruct (runs_inv _ _ _ _ H) as [m Hm]. specialize (Hm m (le_n m)).
  assert (Hr : r <> Fuel) by apply H. cbn [evaluate_1] in Hm. unfold eval_fn_call in Hm.
  apply (fn_value m f s _ s1 Hf) in Hm; [|exact Hr]. cbn [chain_elems] in Hm.
  rewrite (bind_eq _ _ _ _ _ _ _ (eq_refl : ret name s1 = Ok name s1)) in Hm.
  destruct (Z.eqb_spec (e_dlsym E name) 0); [contradiction|].
  unfold bind at 1 in Hm. pose proof (fn_args_cases m ts s1) as A.
  destruct (eval_fn_args E (K E m) (args_tree ts) s1) as [vs s2| | | | | | | |].
  7: congruence.
  2-8: destruct A as (r' & (ts1 & t & ts2 & vs & s2 & s3 & A1 & A2 & A3 & A4 & A5) & A6); left;
    replace r with r' by (rewrite <- Hm; destruct r'; cbn in A6; try discriminate A6; try congruence; exfalso; eapply A5; reflexivity);
    eapply ne_argument; eauto.
  assert (Hs2 := evaluated_reachable _ _ _ _ A Hs).
  assert (Hpos : variadic_position 0 (chain_elems (args_tree ps)) = p).
  { replace (chain_elems (args_tree ps)) with ps by (destruct ps; reflexivity). rewrite (ellipsis_position ps p 0 Hp). destruct p; reflexivity. }
  rewrite Hpos in Hm. unfold bind at 1 in Hm. destruct (ret_lv_cases rt s2 Hs2) as [(rl & s3 & L1 & L2 & L3)|(s3 & L1 & L2 & L3)]; rewrite L1 in Hm.
  - eapply (outcome_call s1 ts vs s2 s3 rl rt p (fun _ => e_dlsym E name)); eauto. eapply only_new_nonempty; eauto.
  - left. rewrite <- Hm. eapply ne_memory; [exact A| |exact L2]. unfold calls_since. exact L3.
Qed.

Lemma pointer_call f d ps rt st a arr n ts p s s1 r : stack s1 <> [] ->
  function E s f (T_LIVE_VAR (D_T_PTR (T_FN d (args_tree ps) rt st)) a arr n) s1 -> ellipsis ps p ->
  runs E s (T_FN_CALL f (args_tree ts)) r -> r <> UB ->
  (exists s', r = NoMemory 16 s' /\ refuses E 16 s' /\ calls_since s1 s' []) \/
  exists s2, only_new E s1 [] s2 /\
    (not_entered E s2 ts rt r \/ entered_with s2 ts p (fun s3 => unsigned_at (mem s3) a 8) r).
Proof.
  intros Hs Hf Hp H Hub. destruct (runs_inv _ _ _ _ H) as [m Hm]. specialize (Hm m (le_n m)).
  assert (Hr : r <> Fuel) by apply H. cbn [evaluate_1] in Hm. unfold eval_fn_call in Hm.
  apply (fn_value m f s _ s1 Hf) in Hm; [|exact Hr]. cbv iota beta in Hm.
  unfold bind at 1 in Hm. destruct (ret_lv_cases rt s1 Hs) as [(rl & s2 & L1 & L2 & L3)|(s2 & L1 & L2 & L3)]; rewrite L1 in Hm.
  2: { left. exists s2. split; [symmetry; exact Hm|]. split; [exact L2|exact L3]. }
  right. exists s2. split; [exact L2|]. assert (Hs2 := only_new_nonempty _ _ _ _ L2).
  unfold bind at 1 in Hm. pose proof (fn_args_cases m ts s2) as A.
  destruct (eval_fn_args E (K E m) (args_tree ts) s2) as [vs s3| | | | | | | |].
  7: congruence.
  2-8: destruct A as (r' & (ts1 & t & ts2 & vs & s3 & s4 & A1 & A2 & A3 & A4 & A5) & A6); left;
    replace r with r' by (rewrite <- Hm; destruct r'; cbn in A6; try discriminate A6; try congruence; exfalso; eapply A5; reflexivity);
    eapply ne_argument; eauto.
  assert (Hs3 := evaluated_reachable _ _ _ _ A Hs2).
  assert (Hpos : variadic_position 0 (chain_elems (args_tree ps)) = p).
  { replace (chain_elems (args_tree ps)) with ps by (destruct ps; reflexivity). rewrite (ellipsis_position ps p 0 Hp). destruct p; reflexivity. }
  rewrite Hpos in Hm. unfold bind at 1, load at 1 in Hm. destruct (valid s3 a 8) eqn:Hv; [|congruence].
  eapply (outcome_call s2 ts vs s3 s3 rl rt p (fun s3 => unsigned_at (mem s3) a 8)); eauto. apply only_new_refl; auto.
Qed.

(** ** Calls that return at once *)

(** No closures are made. *)
Definition shr {A} (m : M A) : Prop := forall s s', final (m s) = Some s' -> List.incl (closures s') (closures s).

Lemma shr_bind A B (m : M A) (f : A -> M B) : shr m -> (forall a, shr (f a)) -> shr (bind m f).
Proof.
  intros Hm Hf s s' H. unfold bind in H. specialize (Hm s). destruct (m s) as [a s1| | | | | | | |] eqn:Em; cbn in H; try discriminate H.
  1: { eapply incl_tran; [eapply Hf; exact H|apply Hm; reflexivity]. }
  all: apply Hm; exact H.
Qed.
Lemma shr_pure A (m : M A) : (forall s s', final (m s) = Some s' -> closures s' = closures s) -> shr m.
Proof. intros H s s' Hf. rewrite (H s s' Hf). apply incl_refl. Qed.
Lemma shr_ret A (a : A) : shr (ret a).
Proof. apply shr_pure. cbn. intros; congruence. Qed.
Lemma shr_die A : shr (@die A).
Proof. apply shr_pure. cbn. intros; congruence. Qed.
Lemma shr_ub A : shr (@ub A).
Proof. apply shr_pure. cbn. intros; congruence. Qed.
Lemma tick_closures s : List.incl (closures (after_tick E s)) (closures s).
Proof. cbn. intros c Hc. apply filter_In in Hc. tauto. Qed.
Lemma shr_tick : shr (tick E).
Proof. intros s s' H. injection H as <-. apply tick_closures. Qed.
Lemma shr_malloc n : shr (malloc E n).
Proof. apply shr_pure. unfold malloc. intros s s'. destruct (_ && _); cbn; intros [= <-]; reflexivity. Qed.
Lemma shr_store a b : shr (store a b).
Proof. apply shr_pure. unfold store. intros s s'. destruct (valid _ _ _); cbn; intros H; try discriminate H; injection H as <-; reflexivity. Qed.
Lemma shr_load a b : shr (load a b).
Proof. apply shr_pure. unfold load. intros s s'. destruct (valid _ _ _); cbn; intros H; try discriminate H; injection H as <-; reflexivity. Qed.
Lemma shr_upd_top f : shr (upd_top f).
Proof. apply shr_pure. unfold upd_top. intros s s'. destruct (stack s); cbn; intros H; try discriminate H; injection H as <-; reflexivity. Qed.
Lemma shr_modify_blocks f : shr (modify (set_blocks f)).
Proof. apply shr_pure. cbn. intros s s' [= <-]. reflexivity. Qed.
Lemma shr_make_live_var : shr (make_live_var_addr E).
Proof.
  unfold make_live_var_addr, track_alloc. repeat first [apply shr_bind; [|intros ?] | apply shr_tick | apply shr_malloc | apply shr_ret | apply shr_upd_top | apply shr_modify_blocks].
Qed.
Lemma shr_marshal_arg p n v : shr (marshal_arg E p n v).
Proof.
  assert (Hp : forall c b pr, shr (push_arg E n c b pr)).
  { intros c b pr. unfold push_arg. destruct (if pr then _ else _) as [[c' w]|].
    - apply shr_bind; [apply shr_make_live_var|intros ?]. apply shr_bind; [apply shr_store|intros _].
      destruct (Nat.eqb n 32); auto using shr_die, shr_ret.
    - destruct (Nat.eqb n 32); auto using shr_die, shr_ret. }
  unfold marshal_arg. destruct v; auto using shr_ub, shr_die.
  - destruct (Nat.eqb n 32); auto using shr_die, shr_ret.
  - destruct v; auto using shr_ub, shr_die.
    + apply shr_bind; [|auto]. unfold load_scalar. apply shr_bind; [apply shr_load|intros; apply shr_ret].
    + apply shr_bind; [apply shr_load|intros]. destruct (Nat.eqb n 32); auto using shr_die, shr_ret.
Qed.
Lemma shr_marshal p : forall vs n, shr (marshal_args E p n vs).
Proof.
  induction vs as [|v vs IH]; intros n; cbn [marshal_args]; [apply shr_ret|].
  apply shr_bind; [apply shr_marshal_arg|intros a]. apply shr_bind; [apply IH|intros; apply shr_ret].
Qed.
Lemma shr_ret_lv rt : shr (make_ret_lv E rt).
Proof. unfold make_ret_lv. destruct (is_D_T_VOID rt); [apply shr_ret|]. apply shr_bind; [apply shr_make_live_var|intros; apply shr_ret]. Qed.

Lemma storable_kept s s' v : kept E s s' -> storable E s v -> storable E s' v.
Proof. intros [K _] H. destruct v; auto. destruct v; auto; apply K, H. Qed.

Lemma passes_kept s s' pr v a : kept E s s' -> storable E s v -> passes E s' pr v a -> passes E s pr v a.
Proof.
  intros K H P. destruct P.
  - constructor.
  - rewrite (kept_mem E s s' a 8 K H). constructor.
  - constructor; assumption.
  - constructor.
  - rewrite (kept_value E s s' c a K H). constructor; assumption.
  - unfold bits. rewrite (kept_mem E s s' a _ K); [constructor; assumption|]. rewrite Z2Nat.id; [exact H|destruct c; cbn; lia].
Qed.

Lemma simple_runs s t v : simple E s t v -> runs E s t (Ok v s) /\ storable E s v.
Proof.
  intros H. destruct H as [t H|x v H1 H2].
  - destruct H as [(z & ->)|[(x & ->)|(m & d & ->)]]; (split; [|exact I]); (split; [discriminate|exists 1%nat; reflexivity]).
  - split; [|exact H2]. apply innermost; auto.
Qed.

Lemma simple_new s m s' t v : only_new E s m s' -> m = [] -> simple E s t v -> simple E s' t v.
Proof.
  intros N -> H. destruct H as [t H|x v H1 H2]; [constructor; exact H|]. constructor.
  - eapply only_new_means; eauto.
  - eapply storable_kept; [apply N|exact H2].
Qed.

Lemma Forall2_impl A B (P Q : A -> B -> Prop) l l' : (forall a b, P a b -> Q a b) -> Forall2 P l l' -> Forall2 Q l l'.
Proof. intros H. induction 1; constructor; auto. Qed.

Lemma gc_closures_args ts : forall vs s, stack s <> [] -> Forall2 (simple E s) ts vs ->
  exists s', lim E (fun k => mapM (fun a => tick E ;; k_ev k a) ts) s (Ok vs s') /\ only_new E s [] s' /\ List.incl (closures s') (closures s).
Proof.
  induction ts as [|t ts IH]; intros vs s Hs H.
  - inversion H; subst. exists s. split; [apply lim_const; reflexivity|]. split; [apply only_new_refl, Hs|apply incl_refl].
  - inversion H as [|? v ? vs' H1 H2]; subst. set (s1 := after_tick E s).
    assert (N : only_new E s [] s1) by (apply tick_new, Hs).
    destruct (IH vs' s1) as (s' & I1 & I2 & I3); [eapply only_new_nonempty; exact N| |].
    { eapply (Forall2_impl tree tree); [|exact H2]. intros a b Hab. eapply simple_new; eauto. }
    exists s'. split; [|split; [eapply only_new_trans0; eauto|eapply incl_tran; [exact I3|apply tick_closures]]].
    cbn [mapM]. eapply lim_bind.
    + eapply lim_bind; [apply lim_const; intros _; apply tick_eq|]. apply lim_ev. apply simple_runs. eapply simple_new; [exact N|reflexivity|exact H1].
    + eapply lim_bind; [exact I1|]. apply lim_const. reflexivity.
Qed.

Lemma simple_args ts vs s : stack s <> [] -> Forall2 (simple E s) ts vs ->
  exists s', lim E (fun k => eval_fn_args E k (args_tree ts)) s (Ok vs s') /\ only_new E s [] s' /\ List.incl (closures s') (closures s).
Proof.
  intros Hs H. set (s1 := after_tick E s).
  assert (N : only_new E s [] s1) by (apply tick_new, Hs).
  destruct (gc_closures_args ts vs s1) as (s' & I1 & I2 & I3); [eapply only_new_nonempty; exact N| |].
  { eapply (Forall2_impl tree tree); [|exact H]. intros a b Hab. eapply simple_new; eauto. }
  exists s'. split; [|split; [eapply only_new_trans0; eauto|eapply incl_tran; [exact I3|apply tick_closures]]].
  unfold eval_fn_args. replace (chain_elems (args_tree ts)) with ts by (destruct ts; reflexivity).
  eapply lim_bind; [apply lim_const; intros _; apply tick_eq|exact I1].
Qed.

(** Marshalling of values in use. *)
Lemma storable_passable s v : storable E s v -> passable v.
Proof. intros H. destruct v; try exact H; try exact I. destruct v; try exact H; exact I. Qed.

Lemma load_storage s a n : storage E s a n -> load a n s = Ok (unsigned_at (mem s) a (Z.to_nat n)) s.
Proof. intros H. unfold load. rewrite (storage_valid E); [reflexivity|exact H]. Qed.

Lemma push_not_ub n c b pr s : stack s <> [] -> push_arg E n c b pr s <> UB.
Proof.
  intros Hs. unfold push_arg. destruct (if pr then _ else _) as [[c' w]|].
  - destruct (make_live_var_new E s Hs) as [(a & s' & H & N & O & M)|H].
    + rewrite (bind_eq _ _ _ _ _ _ _ H).
      destruct (write_new E s a 16 s' (bytes_c c' w) N O) as (W1 & W2 & W3); [rewrite bytes_c_length; destruct c'; cbn; lia|].
      rewrite (bind_eq _ _ _ _ _ _ _ W1). destruct (Nat.eqb n 32); discriminate.
    + unfold bind at 1. rewrite H. discriminate.
  - destruct (Nat.eqb n 32); discriminate.
Qed.

Lemma marshal_not_ub p n v s : stack s <> [] -> storable E s v -> marshal_arg E p n v s <> UB.
Proof.
  intros Hs H. unfold marshal_arg. destruct v; try contradiction; try (apply push_not_ub; exact Hs).
  - destruct (Nat.eqb n 32); discriminate.
  - destruct v; try contradiction; cbn [storable] in H.
    + unfold load_scalar, bind at 1. unfold bind at 1. change (csize c) with (width c). rewrite (load_storage _ _ _ H). cbn [ret]. apply push_not_ub, Hs.
    + unfold bind at 1. rewrite (load_storage _ _ _ H). destruct (Nat.eqb n 32); discriminate.
Qed.

Definition passed_from (s : state) (p : option nat) (n : nat) (vs : list tree) (args : list arg) : Prop :=
  List.length args = List.length vs /\
  forall i v a, nth_error vs i = Some v -> nth_error args i = Some a -> passes E s (in_variadic p (n + i)) v a.

Lemma marshal_simple p : forall vs n s, stack s <> [] -> (n + List.length vs <= 32)%nat -> Forall (storable E s) vs ->
  (exists s', marshal_args E p n vs s = NoMemory 16 s') \/
  exists args s', marshal_args E p n vs s = Ok args s' /\ only_new E s [] s' /\ passed_from s p n vs args.
Proof.
  induction vs as [|v vs IH]; intros n s Hs Hn Hv; cbn [marshal_args].
  - right. exists [], s. split; [reflexivity|]. split; [apply only_new_refl, Hs|]. split; [reflexivity|].
    intros i v a Hi. destruct i; discriminate Hi.
  - inversion Hv as [|? ? Hv1 Hv2]; subst. cbn [List.length] in Hn.
    pose proof (marshal_cases p n v s Hs) as C. pose proof (marshal_not_ub p n v s Hs Hv1) as U. unfold bind.
    destruct (marshal_arg E p n v s) as [a s1| | s1 | | | | |k s1|]; cbn [push_ok] in C; try contradiction.
    + destruct C as (C1 & C2 & C3). assert (Hs1 := only_new_nonempty _ _ _ _ C2).
      destruct (IH (S n) s1 Hs1 ltac:(lia)) as [(s' & I1)|(args & s' & I1 & I2 & I3 & I4)].
      * eapply Forall_impl; [|exact Hv2]. intros w Hw. eapply storable_kept; [apply C2|exact Hw].
      * left. exists s'. unfold bind. rewrite I1. reflexivity.
      * right. exists (a :: args), s'. unfold bind. rewrite I1. split; [reflexivity|]. split; [eapply only_new_trans0; eauto|].
        split; [cbn; congruence|]. intros [|i] w b Hw Hb; cbn [nth_error] in Hw, Hb.
        -- injection Hw as <-. injection Hb as <-. rewrite Nat.add_0_r. exact C1.
        -- rewrite Nat.add_succ_r. eapply passes_kept; [apply C2| |apply (I4 i w b Hw Hb)].
           rewrite Forall_forall in Hv2. apply Hv2. eapply nth_error_In; eauto.
    + destruct C as (_ & [C|C]); [lia|]. exfalso. apply C. eapply storable_passable; eauto.
    + destruct C as (-> & _). left. exists s1. reflexivity.
Qed.

Lemma marshal_many p : forall vs n s, stack s <> [] -> (n <= 32)%nat -> (32 < n + List.length vs)%nat -> Forall (storable E s) vs ->
  (exists s', marshal_args E p n vs s = NoMemory 16 s') \/ exists s', marshal_args E p n vs s = Die s' /\ trace s' = trace s.
Proof.
  induction vs as [|v vs IH]; intros n s Hs Hn Hl Hv; cbn [marshal_args List.length] in *; [lia|].
  inversion Hv as [|? ? Hv1 Hv2]; subst.
  pose proof (marshal_cases p n v s Hs) as C. pose proof (marshal_not_ub p n v s Hs Hv1) as U. unfold bind.
  destruct (marshal_arg E p n v s) as [a s1| | s1 | | | | |k s1|]; cbn [push_ok] in C; try contradiction.
  - destruct C as (C1 & C2 & C3). assert (Hs1 := only_new_nonempty _ _ _ _ C2).
    destruct (IH (S n) s1 Hs1 ltac:(lia) ltac:(lia)) as [(s' & I1)|(s' & I1 & I2)].
    + eapply Forall_impl; [|exact Hv2]. intros w Hw. eapply storable_kept; [apply C2|exact Hw].
    + left. exists s'. unfold bind. rewrite I1. reflexivity.
    + right. exists s'. unfold bind. rewrite I1. split; [reflexivity|]. rewrite I2. apply (only_new_trace _ _ _ C2).
  - right. exists s1. split; [reflexivity|]. apply C.
  - destruct C as (-> & _). left. exists s1. reflexivity.
Qed.

(** The result is stored. *)
Lemma value_ret s a c bits : integer_type c = true ->
  wraps c bits (value_at (set_mem (fun m => store_bytes m a (ret_bytes (Some (ffi_of c)) bits)) s) c a).
Proof.
  intros Hc. apply value_wraps; [exact Hc|]. cbn [ret_bytes mem set_mem].
  replace (is_intty (ffi_of c)) with true by (destruct c; try discriminate Hc; reflexivity).
  assert (Hw : (Z.to_nat (width c) <= 8)%nat) by (destruct c; try discriminate Hc; cbn; lia).
  change (exists q, le_load (store_bytes (mem s) a (le_bytes 8 (conv (ffi_of c) bits))) a (Z.to_nat (width c)) = bits + q * 2 ^ (8 * width c)).
  rewrite <- (le_load_prefix _ _ _ 8 Hw), le_load_store.
  destruct (proj1 (conv_wraps (ffi_of c) bits)) as [q Hq]. replace (csize (ffi_of c)) with (width c) in Hq by (destruct c; reflexivity).
  rewrite Hq. replace (256 ^ Z.of_nat (Z.to_nat (width c))) with (2 ^ (8 * width c)) by (destruct c; reflexivity).
  assert (Hp : 0 < 2 ^ (8 * width c)) by (apply Z.pow_pos_nonneg; destruct c; cbn; lia).
  assert (Hd : (2 ^ (8 * width c) | 256 ^ Z.of_nat 8)).
  { exists (2 ^ (64 - 8 * width c)). rewrite <- Z.pow_add_r by (destruct c; try discriminate Hc; cbn; lia).
    replace (64 - 8 * width c + 8 * width c) with 64 by lia. reflexivity. }
  rewrite <- (Znumtheory.Zmod_div_mod (2 ^ (8 * width c)) (256 ^ Z.of_nat 8)) by (auto; reflexivity).
  rewrite Z_mod_plus_full. exists (- (bits / 2 ^ (8 * width c))). pose proof (Z.div_mod bits (2 ^ (8 * width c)) ltac:(lia)). lia.
Qed.

Lemma enter_once s s2 addr args rt rl bits : result_type rt -> only_new E s [] s2 ->
  (forall c, In c (closures s2) -> cl_addr c <> addr) -> addr <> 0 -> addr <> e_alloca E ->
  (forall args s', e_ext E addr args s' 0 = EDone bits) ->
  match rl with None => rt = D_T_VOID | Some (ty, a) => ty = rt /\ rt <> D_T_VOID /\ new_object E s a 16 s2 end ->
  exists s', lim E (fun k => rty <- result_ffi rl ;; enter k addr args rl rty) s2 (Ok tt s') /\ kept E s s' /\
    calls_since s s' [EvCall addr args] /\ result E s s' bits rt (ret_lv_tree rl).
Proof.
  intros Hrt N Hcl Ha Hal He Hrl. set (s5 := set_trace (fun t => EvCall addr args :: t) s2).
  pose proof (only_new_trace _ _ _ N) as T.
  assert (Hfind : find_closure addr s5 = None).
  { unfold find_closure. destruct (find _ (closures s5)) as [c|] eqn:Ef; [|reflexivity]. apply find_some in Ef as [Ef1 Ef2].
    apply Z.eqb_eq in Ef2. exfalso. exact (Hcl c Ef1 Ef2). }
  assert (Hent : forall rty r, lim E (fun _ => match rl, rty with Some (_, a), Some t => store a (ret_bytes t bits) | _, _ => ret tt end) s5 r ->
    lim E (fun k => enter k addr args rl rty) s2 r).
  { intros rty r Hr. unfold enter. eapply lim_bind; [apply lim_const; intros _; reflexivity|]. fold s5.
    eapply lim_bind; [apply lim_const; intros _; reflexivity|]. rewrite Hfind.
    destruct (Z.eqb_spec addr (e_alloca E)); [contradiction|]. destruct (Z.eqb_spec addr 0); [contradiction|].
    eapply (lim_bind E _ _ _ _ s5 bits s5); [|exact Hr]. apply lim_ext_step. apply lim_const. intros k. unfold ext_step, bind, get.
    rewrite He. reflexivity. }
  destruct rl as [[ty a]|].
  - destruct Hrl as (-> & Hv & O).
    assert (Hst : forall t, (List.length (ret_bytes t bits) <= 16)%nat -> store a (ret_bytes t bits) s5 = Ok tt (set_mem (fun m => store_bytes m a (ret_bytes t bits)) s5) /\
      only_new E s [] (set_mem (fun m => store_bytes m a (ret_bytes t bits)) s2) /\ new_object E s a 16 (set_mem (fun m => store_bytes m a (ret_bytes t bits)) s2)).
    { intros t Ht. destruct (write_new E s a 16 s2 (ret_bytes t bits) N O ltac:(lia)) as (W1 & W2 & W3). split; [|auto].
      unfold store in *. change (valid s5) with (valid s2). destruct (valid s2 a _); [reflexivity|discriminate W1]. }
    destruct rt; try contradiction; cbn [result_type] in Hrt; cbn [result_ffi get_ffi_type].
    + destruct (Hst (Some (ffi_of c))) as (W1 & W2 & W3).
      { cbn [ret_bytes]. replace (is_intty (ffi_of c)) with true by (destruct c; try discriminate Hrt; reflexivity). cbn. lia. }
      eexists. split; [|split; [|split]].
      * eapply lim_bind; [apply lim_const; intros _; reflexivity|]. apply Hent. apply lim_const. intros _. exact W1.
      * destruct W2 as (_ & [K1 K2] & _). split; [exact K1|exact K2].
      * unfold calls_since. cbn. rewrite T. reflexivity.
      * cbn [ret_lv_tree live_var]. constructor; [exact Hrt|exact W3|]. apply (value_ret s5). exact Hrt.
    + destruct (Hst None) as (W1 & W2 & W3); [cbn; lia|].
      eexists. split; [|split; [|split]].
      * eapply lim_bind; [apply lim_const; intros _; reflexivity|]. apply Hent. apply lim_const. intros _. exact W1.
      * destruct W2 as (_ & [K1 K2] & _). split; [exact K1|exact K2].
      * unfold calls_since. cbn. rewrite T. reflexivity.
      * cbn [ret_lv_tree live_var]. constructor; [exact W3|]. cbn [ret_bytes mem set_mem].
        change (unsigned_at ?m a 8) with (le_load m a 8). rewrite le_load_store. reflexivity.
  - subst rt. exists s5. split; [|split; [|split]].
    + eapply lim_bind; [apply lim_const; intros _; reflexivity|]. apply Hent. apply lim_const. reflexivity.
    + apply N.
    + unfold calls_since. cbn. rewrite T. reflexivity.
    + constructor.
Qed.

(** Nothing of the above depends on where the arguments are evaluated. *)
Lemma ext_once s1 s3 vs p addr rt rl bits : stack s3 <> [] -> result_type rt -> only_new E s1 [] s3 -> Forall (storable E s1) vs ->
  (List.length vs <= 32)%nat -> (forall c, In c (closures s3) -> cl_addr c <> addr) -> addr <> 0 -> addr <> e_alloca E ->
  (forall args s', e_ext E addr args s' 0 = EDone bits) ->
  match rl with None => rt = D_T_VOID | Some (ty, a) => ty = rt /\ rt <> D_T_VOID /\ new_object E s1 a 16 s3 end ->
  (exists s', lim E (fun k => do_ext_call E k addr vs rl p ;; ret (ret_lv_tree rl)) s3 (NoMemory 16 s')) \/
  exists args s', lim E (fun k => do_ext_call E k addr vs rl p ;; ret (ret_lv_tree rl)) s3 (Ok (ret_lv_tree rl) s') /\
    passed_as E s1 p vs args /\ calls_since s1 s' [EvCall addr args] /\ result E s1 s' bits rt (ret_lv_tree rl) /\ kept E s1 s'.
Proof.
  intros Hs3 Hrt N Hst Hl Hcl Ha Hal He Hrl.
  assert (Hst3 : Forall (storable E s3) vs).
  { eapply Forall_impl; [|exact Hst]. intros v Hv. eapply storable_kept; [apply N|exact Hv]. }
  destruct (marshal_simple p vs 0 s3 Hs3 ltac:(lia) Hst3) as [(s' & M)|(args & s4 & M & M2 & M3 & M4)].
  - left. exists s'. refine (lim_bind_fail E _ _ _ _ s3 (NoMemory 16 s') _ eq_refl).
    refine (lim_bind_fail E _ _ (fun k => marshal_args E p 0 vs) _ s3 (NoMemory 16 s') _ eq_refl). apply lim_const. intros _. exact M.
  - right. assert (N4 := only_new_trans0 _ _ _ _ _ N M2).
    destruct (enter_once s1 s4 addr args rt rl bits Hrt N4) as (s' & R1 & R2 & R3 & R4); auto.
    { intros c Hc. apply Hcl. eapply (shr_marshal p vs 0 s3 s4); [rewrite M; reflexivity|exact Hc]. }
    { destruct rl as [[ty a]|]; [|exact Hrl]. destruct Hrl as (H1 & H2 & H3). split; [exact H1|split; [exact H2|]].
      eapply new_object_r; eauto. }
    exists args, s'. split; [|split; [|auto]].
    + eapply lim_bind; [|apply lim_const; reflexivity].
      apply (lim_ext E _ _ (fun k => args <- marshal_args E p 0 vs ;; rty <- result_ffi rl ;; enter k addr args rl rty)); [reflexivity|].
      eapply lim_bind; [apply lim_const; intros _; exact M|exact R1].
    + split; [exact M3|]. intros i v a Hv Hi. eapply passes_kept; [apply N| |exact (M4 i v a Hv Hi)].
      rewrite Forall_forall in Hst. apply Hst. eapply nth_error_In; eauto.
Qed.

Definition call_outcome (s s1 : state) (t : tree) (vs : list tree) (p : option nat) (addr : Z) (rt : tree) (bits : Z) : Prop :=
  out_of_memory E s t 16 \/
  exists args v s', runs E s t (Ok v s') /\ passed_as E s1 p vs args /\ calls_since s1 s' [EvCall addr args] /\
    result E s1 s' bits rt v /\ kept E s1 s'.

Lemma fn_value_lim f s v s1 (g : knot -> tree -> M tree) r : function E s f v s1 -> lim E (fun k => g k v) s1 r ->
  lim E (fun k => f0 <- k_ev k f ;; f' <- match f0 with T_EXT_FUNC _ => k_ev k f0 | _ => ret f0 end ;; g k f') s r.
Proof.
  intros H Hg. destruct H as [H Hn|h s2 H1 H2].
  - eapply lim_bind; [apply lim_ev; exact H|]. eapply (lim_bind E _ _ _ _ s1 v s1); [|exact Hg].
    destruct v; try (apply lim_const; reflexivity). exfalso. eapply Hn. reflexivity.
  - eapply lim_bind; [apply lim_ev; exact H1|]. eapply lim_bind; [apply lim_ev; exact H2|exact Hg].
Qed.

Definition made (s s' : state) (rt : tree) (rl : option (tree * Z)) : Prop :=
  match rl with None => rt = D_T_VOID | Some (ty, a) => ty = rt /\ rt <> D_T_VOID /\ new_object E s a 16 s' end.

Lemma ret_lv_new rt s : stack s <> [] ->
  (exists rl s', make_ret_lv E rt s = Ok rl s' /\ only_new E s [] s' /\ made s s' rt rl) \/
  (exists s', make_ret_lv E rt s = NoMemory 16 s').
Proof.
  intros Hs. unfold make_ret_lv. destruct (is_D_T_VOID rt) eqn:Hv.
  - left. eexists None, s. split; [reflexivity|]. split; [apply only_new_refl, Hs|]. destruct rt; try discriminate Hv. reflexivity.
  - destruct (make_live_var_new E s Hs) as [(a & s' & H & N & O & M)|H].
    + left. exists (Some (rt, a)), s'. rewrite (bind_eq _ _ _ _ _ _ _ H). split; [reflexivity|]. split; [exact N|].
      split; [reflexivity|]. split; [|exact O]. intros ->. discriminate Hv.
    + right. exists (after_tick E s). unfold bind at 1. rewrite H. reflexivity.
Qed.

Lemma made_l s s1 s2 rt rl : only_new E s [] s1 -> made s1 s2 rt rl -> made s s2 rt rl.
Proof.
  intros N H. destruct rl as [[ty a]|]; [|exact H]. destruct H as (H1 & H2 & H3). split; [exact H1|]. split; [exact H2|].
  eapply new_object_l; eauto.
Qed.
Lemma made_r s s1 s2 rt rl : only_new E s1 [] s2 -> made s s1 rt rl -> made s s2 rt rl.
Proof.
  intros N H. destruct rl as [[ty a]|]; [|exact H]. destruct H as (H1 & H2 & H3). split; [exact H1|]. split; [exact H2|].
  eapply new_object_r; eauto.
Qed.

Lemma simple_storable s ts vs : Forall2 (simple E s) ts vs -> Forall (storable E s) vs /\ List.length vs = List.length ts.
Proof.
  intros H. induction H as [|t v ts vs H1 H2 [IH1 IH2]]; [split; [constructor|reflexivity]|].
  split; [constructor; [eapply simple_runs; eauto|exact IH1]|cbn; congruence].
Qed.

Lemma ellipsis_args ps p : ellipsis ps p -> variadic_position 0 (chain_elems (args_tree ps)) = p.
Proof.
  intros Hp. replace (chain_elems (args_tree ps)) with ps by (destruct ps; reflexivity). rewrite (ellipsis_position ps p 0 Hp). destruct p; reflexivity.
Qed.

(** Before the function is entered: the outcome of the call is that of [f]. *)
Lemma reach_named f name ps rt ts vs p s s1 : stack s1 <> [] ->
  function E s f (T_FN (T_IDENTIFIER name) (args_tree ps) rt NULL) s1 -> ellipsis ps p ->
  Forall2 (simple E s1) ts vs -> e_dlsym E name <> 0 ->
  let t := T_FN_CALL f (args_tree ts) in
  out_of_memory E s t 16 \/
  exists rl s3, only_new E s1 [] s3 /\ List.incl (closures s3) (closures s1) /\ made s1 s3 rt rl /\
    forall r, r <> Fuel -> lim E (fun k => do_ext_call E k (e_dlsym E name) vs rl p ;; ret (ret_lv_tree rl)) s3 r -> runs E s t r.
Proof.
  intros Hs Hf Hp Hv Ha t. pose proof (ellipsis_args ps p Hp) as Hpos.
  destruct (simple_args ts vs s1 Hs Hv) as (s2 & I1 & I2 & I3). assert (Hs2 := only_new_nonempty _ _ _ _ I2).
  assert (Hgo : forall r, r <> Fuel -> lim E (fun k => rl <- make_ret_lv E rt ;; do_ext_call E k (e_dlsym E name) vs rl p ;; ret (ret_lv_tree rl)) s2 r ->
    runs E s t r).
  { intros r Hr Hl. apply lim_runs; [exact Hr|]. cbn [evaluate_1]. unfold eval_fn_call. apply (fn_value_lim f s _ s1 _ _ Hf).
    cbv iota beta. eapply lim_bind; [apply lim_const; intros _; reflexivity|]. destruct (Z.eqb_spec (e_dlsym E name) 0); [contradiction|].
    rewrite Hpos. eapply lim_bind; [exact I1|]. exact Hl. }
  destruct (ret_lv_new rt s2 Hs2) as [(rl & s3 & L1 & L2 & L3)|(s3 & L1)].
  - right. exists rl, s3. split; [eapply only_new_trans0; eauto|]. split.
    + eapply incl_tran; [|exact I3]. apply (shr_ret_lv rt). rewrite L1. reflexivity.
    + split; [eapply made_l; eauto|]. intros r Hr Hl. apply Hgo; [exact Hr|]. eapply lim_bind; [apply lim_const; intros _; exact L1|]. exact Hl.
  - left. eapply oom. apply Hgo; [discriminate|]. refine (lim_bind_fail E _ _ (fun _ => make_ret_lv E rt) _ s2 (NoMemory 16 s3) _ eq_refl).
    apply lim_const. intros _. exact L1.
Qed.

Lemma reach_pointer f d ps rt st a arr n ts vs p s s1 : stack s1 <> [] ->
  function E s f (T_LIVE_VAR (D_T_PTR (T_FN d (args_tree ps) rt st)) a arr n) s1 -> ellipsis ps p -> storage E s1 a 8 ->
  Forall2 (simple E s1) ts vs ->
  let t := T_FN_CALL f (args_tree ts) in
  out_of_memory E s t 16 \/
  exists rl s3, only_new E s1 [] s3 /\ List.incl (closures s3) (closures s1) /\ made s1 s3 rt rl /\
    forall r, r <> Fuel -> lim E (fun k => do_ext_call E k (unsigned_at (mem s1) a 8) vs rl p ;; ret (ret_lv_tree rl)) s3 r -> runs E s t r.
Proof.
  intros Hs Hf Hp Ha Hv t. pose proof (ellipsis_args ps p Hp) as Hpos.
  assert (Hgo : forall r, r <> Fuel -> lim E (fun k => rl <- make_ret_lv E rt ;; vs <- eval_fn_args E k (args_tree ts) ;;
      addr <- load a 8 ;; do_ext_call E k addr vs rl p ;; ret (ret_lv_tree rl)) s1 r -> runs E s t r).
  { intros r Hr Hl. apply lim_runs; [exact Hr|]. cbn [evaluate_1]. unfold eval_fn_call. apply (fn_value_lim f s _ s1 _ _ Hf).
    cbv iota beta. rewrite Hpos. exact Hl. }
  destruct (ret_lv_new rt s1 Hs) as [(rl & s2 & L1 & L2 & L3)|(s2 & L1)].
  - right. assert (Hs2 := only_new_nonempty _ _ _ _ L2).
    destruct (simple_args ts vs s2 Hs2) as (s3 & I1 & I2 & I3).
    { eapply (Forall2_impl tree tree); [|exact Hv]. intros x y Hxy. eapply simple_new; eauto. }
    assert (N3 := only_new_trans0 _ _ _ _ _ L2 I2).
    exists rl, s3. split; [exact N3|]. split.
    + eapply incl_tran; [exact I3|]. apply (shr_ret_lv rt). rewrite L1. reflexivity.
    + split; [eapply (made_r s1 s2 s3); eauto|]. intros r Hr Hl. apply Hgo; [exact Hr|]. eapply lim_bind; [apply lim_const; intros _; exact L1|].
      eapply lim_bind; [exact I1|]. eapply lim_bind; [apply lim_const; intros _; apply load_storage; apply N3, Ha|].
      replace (unsigned_at (mem s3) a (Z.to_nat 8)) with (unsigned_at (mem s1) a 8); [exact Hl|].
      symmetry. apply (kept_mem E s1 s3 a 8); [apply N3|exact Ha].
  - left. eapply oom. apply Hgo; [discriminate|]. refine (lim_bind_fail E _ _ (fun _ => make_ret_lv E rt) _ s1 (NoMemory 16 s2) _ eq_refl).
    apply lim_const. intros _. exact L1.
Qed.

(** The two endings. *)
Lemma once_end s s1 t ts vs p addr rt bits rl s3 : result_type rt -> Forall2 (simple E s1) ts vs -> (List.length ts <= 32)%nat ->
  returns_at_once E s1 addr bits -> only_new E s1 [] s3 -> List.incl (closures s3) (closures s1) -> made s1 s3 rt rl ->
  (forall r, r <> Fuel -> lim E (fun k => do_ext_call E k addr vs rl p ;; ret (ret_lv_tree rl)) s3 r -> runs E s t r) ->
  call_outcome s s1 t vs p addr rt bits.
Proof.
  intros Hrt Hv Hl (A1 & A2 & A3 & A4) N Hc Hm Hr. destruct (simple_storable s1 ts vs Hv) as [Hst Hlen].
  destruct (ext_once s1 s3 vs p addr rt rl bits (only_new_nonempty _ _ _ _ N) Hrt N Hst ltac:(lia)) as [(s' & R)|(args & s' & R & R')]; auto.
  - left. eapply oom. apply Hr; [discriminate|exact R].
  - right. exists args, (ret_lv_tree rl), s'. split; [apply Hr; [discriminate|exact R]|exact R'].
Qed.

Lemma many_end s s1 t ts vs p addr rl s3 : Forall2 (simple E s1) ts vs -> (32 < List.length ts)%nat ->
  only_new E s1 [] s3 ->
  (forall r, r <> Fuel -> lim E (fun k => do_ext_call E k addr vs rl p ;; ret (ret_lv_tree rl)) s3 r -> runs E s t r) ->
  out_of_memory E s t 16 \/ exists s', runs E s t (Die s') /\ calls_since s1 s' [].
Proof.
  intros Hv Hl N Hr. destruct (simple_storable s1 ts vs Hv) as [Hst Hlen].
  assert (Hst3 : Forall (storable E s3) vs).
  { eapply Forall_impl; [|exact Hst]. intros v Hw. eapply storable_kept; [apply N|exact Hw]. }
  assert (Hfail : forall x, is_ok x = false -> x <> Fuel -> marshal_args E p 0 vs s3 = x -> runs E s t (recast x)).
  { intros x Hx Hf Hm. apply Hr; [destruct x; try discriminate Hx; try discriminate; congruence|].
    apply (lim_ext E _ _ (fun k => (args <- marshal_args E p 0 vs ;; rty <- result_ffi rl ;; enter k addr args rl rty) ;; ret (ret_lv_tree rl))); [reflexivity|].
    replace (recast x : res tree) with (recast (recast x : res unit) : res tree) by (destruct x; reflexivity).
    apply lim_bind_fail; [|destruct x; try discriminate Hx; reflexivity].
    apply (lim_bind_fail E _ _ (fun k => marshal_args E p 0 vs)); [|exact Hx]. apply lim_const. intros _. exact Hm. }
  destruct (marshal_many p vs 0 s3 (only_new_nonempty _ _ _ _ N) ltac:(lia) ltac:(lia) Hst3) as [(s' & M)|(s' & M & T)].
  - left. eapply oom. apply (Hfail (NoMemory 16 s')); [reflexivity|discriminate|exact M].
  - right. exists s'. split; [apply (Hfail (Die s')); [reflexivity|discriminate|exact M]|].
    unfold calls_since. rewrite T. apply (only_new_trace _ _ _ N).
Qed.

(** A function declared [extern]. *)
Lemma extern_function s x ps rt st : stack s <> [] ->
  let g := T_FN (T_IDENTIFIER x) ps rt st in
  ~ In x ["alloca"; "atexit"; "at_quick_exit"]%string -> e_dlsym E x <> 0 ->
  out_of_memory E s (T_EXT_FUNC g) 16 \/
  exists a s', runs E s (T_EXT_FUNC g) (Ok (T_LIVE_VAR (D_T_PTR g) a false 0) s') /\ only_new E s [] s' /\
    new_object E s a 16 s' /\ unsigned_at (mem s') a 8 = e_dlsym E x mod 2 ^ 64.
Proof.
  intros Hs g Hx Ha.
  assert (Hgo : forall r, r <> Fuel -> lim E (fun k => a <- make_live_var_addr E ;; store a (le_bytes 8 (e_dlsym E x)) ;; k_ev k (live_var (D_T_PTR g) a)) (after_tick E s) r ->
    runs E s (T_EXT_FUNC g) r).
  { intros r Hr Hl. apply lim_runs; [exact Hr|]. cbn [evaluate_1]. unfold eval_ext_func.
    eapply lim_bind; [apply lim_const; intros _; apply tick_eq|]. unfold g at 1.
    destruct (String.eqb_spec x "alloca"); [subst; exfalso; apply Hx; cbn; auto|].
    destruct (String.eqb_spec x "atexit"); [subst; exfalso; apply Hx; cbn; auto|].
    destruct (String.eqb_spec x "at_quick_exit"); [subst; exfalso; apply Hx; cbn; auto|].
    cbv zeta. destruct (Z.eqb_spec (e_dlsym E x) 0); [contradiction|]. exact Hl. }
  pose proof (tick_new E s Hs) as N. assert (Hs1 := only_new_nonempty _ _ _ _ N).
  destruct (make_live_var_new E (after_tick E s) Hs1) as [(a & s1 & H & N1 & O & M)|H].
  - right. destruct (write_new E _ a 16 s1 (le_bytes 8 (e_dlsym E x)) N1 O) as (W1 & W2 & W3); [cbn; lia|].
    exists a. eexists. split; [|split; [|split]].
    + apply Hgo; [discriminate|]. eapply lim_bind; [apply lim_const; intros _; exact H|].
      eapply lim_bind; [apply lim_const; intros _; exact W1|]. apply lim_eval1. apply lim_const. reflexivity.
    + eapply only_new_trans0; [exact N|exact W2].
    + eapply new_object_l; [exact N|exact W3].
    + cbn [mem set_mem]. apply unsigned_store.
  - left. eapply oom. apply Hgo; [discriminate|]. refine (lim_bind_fail E _ _ (fun _ => make_live_var_addr E) _ _ (NoMemory 16 _) _ eq_refl).
    apply lim_const. intros _. exact H.
Qed.

Lemma function_reachable s f v s1 : reachable E s -> function E s f v s1 -> reachable E s1.
Proof.
  intros Hr [H _|g s2 H1 H2].
  - exact (reachable_runs _ _ _ _ _ Hr H eq_refl).
  - exact (reachable_runs _ _ _ _ _ (reachable_runs _ _ _ _ _ Hr H1 eq_refl) H2 eq_refl).
Qed.

End Ext.
