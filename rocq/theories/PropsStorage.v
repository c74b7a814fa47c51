(** Property theorems about storage: C20. *)
From Coq Require Import ZArith List String Bool Lia.
From Verif Require Import CInt Tree State Eval StepsFacts SpecRun SpecStatic StaticFacts StuckFacts RunFacts TestEnv TestRun.
Import ListNotations.
Local Open Scope string_scope.
Local Open Scope Z_scope.
Local Open Scope list_scope.

(** * C20: storage in use is allocated, disjoint and kept *)

(** Whatever belongs to a scope, a header or a static declaration of the program is allocated. *)
Theorem C20_allocated : forall E s base, reachable E s -> in_use E s base -> exists n, allocated s base n.
Proof. exact in_use_allocated. Qed.
Print Assumptions C20_allocated.

(** Allocated blocks do not overlap. *)
Theorem C20_disjoint : forall E s b1 n1 b2 n2, reachable E s -> allocated s b1 n1 -> allocated s b2 n2 ->
  b1 = b2 /\ n1 = n2 \/ b1 <> b2 /\ (b1 + n1 <= b2 \/ b2 + n2 <= b1).
Proof. exact allocated_apart. Qed.
Print Assumptions C20_disjoint.

(** No step of any execution frees a block in use: whichever unreachable blocks the collector
    chooses, whenever it runs. *)
Theorem C20_kept : forall E s s' base n, reachable E s -> step E s s' -> in_use E s base ->
  allocated s base n -> allocated s' base n.
Proof. exact in_use_kept. Qed.
Print Assumptions C20_kept.

(** So the storage of a variable lasts as long as the scope it belongs to. *)
Theorem C20_kept_in_scope : forall E i a n s s', reachable E s -> steps E s s' ->
  (exists c, In c (stack s) /\ c_id c = i /\ In a (c_allocs c)) -> (exists c, In c (stack s') /\ c_id c = i) ->
  allocated s a n -> allocated s' a n.
Proof. exact scope_storage. Qed.
Print Assumptions C20_kept_in_scope.

(** Every evaluation consists of such steps. *)
Theorem C20_evaluation_steps : forall E s t r s', runs E s t r -> final r = Some s' -> steps E s s'.
Proof. intros E s t r s' [_ [n H]] Hf. apply (ev_steps E n t s s'). unfold evaluate_expr in H. rewrite H. exact Hf. Qed.
Print Assumptions C20_evaluation_steps.

(** An evaluation runs out of memory only where malloc refused the bytes it asked for, in a state of this execution. *)
Theorem C20_out_of_memory : forall E s t n s', runs E s t (NoMemory n s') -> steps E s s' /\ refuses E n s'.
Proof. intros E s t n s' [_ [k H]]. exact (ev_refused E k t s n s' H). Qed.
Print Assumptions C20_out_of_memory.

(** malloc refuses when the address it returns is null, too large, or inside allocated memory. *)
Theorem C20_refusal : forall E s n, 0 < n -> (refuses E n s <->
  ~ (0 < e_malloc E s n /\ e_malloc E s n + n <= 2 ^ 63 /\
     forall b, In b (blocks s) -> e_malloc E s n + n <= b_base b \/ b_base b + Z.max (b_size b) 1 <= e_malloc E s n)).
Proof. exact refuses_spec. Qed.
Print Assumptions C20_refusal.

(** With no memory left [int y;] stops so; before, [int x;] succeeds. *)
Definition env_small : env := mkenv
  (fun s n => match blocks s with [] => e_malloc env0 s n | _ => 0 end)
  (e_gc env0) (e_gc_cl env0) (e_rooted env0) (e_dlsym env0) 9001 9002 9003 (e_ext env0) (e_include env0) (e_repl env0)
  (e_fp_lit env0) (e_fp_cast env0) (e_fp_add env0) (e_fp_sub env0).
Lemma out_of_memory_after k s t u v n : value (k_ev (K env_small k) t s) = Some v ->
  kind_of (k_ev (K env_small k) u (final_state (k_ev (K env_small k) t s))) = KNoMemory n ->
  exists s1 s', runs env_small s t (Ok v s1) /\ runs env_small s1 u (NoMemory n s') /\ refuses env_small n s'.
Proof.
  intros H1 H2. destruct (k_ev (K env_small k) t s) as [w s1| | | | | | | |] eqn:Hx; try discriminate H1.
  injection H1 as ->. cbn [final_state] in H2.
  destruct (k_ev (K env_small k) u s1) as [| | | | | | |m s'|] eqn:Hy; try discriminate H2. injection H2 as ->.
  exists s1, s'. split; [apply (runs_intro _ _ _ _ k); [exact Hx|discriminate]|].
  assert (Hr : runs env_small s1 u (NoMemory n s')) by (apply (runs_intro _ _ _ _ k); [exact Hy|discriminate]).
  split; [exact Hr|]. exact (proj2 (C20_out_of_memory _ _ _ _ _ Hr)).
Qed.
Example C20_out_of_memory_example : exists s s', runs env_small s0 (decl_int "x") (Ok (id "x") s) /\
  runs env_small s (decl_int "y") (NoMemory 16 s') /\ refuses env_small 16 s'.
Proof.
  apply (out_of_memory_after 20 s0 (decl_int "x") (decl_int "y") (id "x") 16).
  - vm_compute. reflexivity.
  - vm_compute. reflexivity.
Qed.

(** A block [{ int y = 5; x = y + 2; }] inside the scope of [int x = 1;]: the storage of [x] is in use and kept,
    the storage of [y] is new and does not overlap it; the collector frees whatever it may. *)
Definition x1 : state := after [init_int (-1) "x" (num 1)].
Definition y_block : tree :=
  T_IF (num 1) (CHAIN_HEAD [init_int (-2) "y" (num 5); T_ASSIGN (-3) (id "x") (T_BINOP ADD (id "y") (num 2))]) NULL.
Definition x2 : state := final_state (outcome x1 y_block).
Example C20_nontrivial : reachable env0 x1 /\ in_use env0 x1 4112 /\ allocated x1 4112 16 /\
  runs env0 x1 y_block (Ok NULL x2) /\ allocated x2 4112 16 /\ allocated x2 4144 16 /\ value_at x2 D_T_INT 4112 = 7 /\
  (exists i, (exists c, In c (stack x1) /\ c_id c = i /\ In 4112 (c_allocs c)) /\ exists c, In c (stack x2) /\ c_id c = i).
Proof.
  assert (H1 : reachable env0 x1) by apply reachable_after.
  assert (H2 : existsb (fun c => (c_id c =? 1) && existsb (Z.eqb 4112) (c_allocs c)) (stack x1) = true) by (vm_compute; reflexivity).
  assert (H3 : existsb (fun b => (b_base b =? 4112) && (b_size b =? 16)) (blocks x1) = true) by (vm_compute; reflexivity).
  assert (H4 : runs env0 x1 y_block (Ok NULL x2)) by (apply outcome_ok; vm_compute; reflexivity).
  assert (H5 : existsb (fun b => (b_base b =? 4112) && (b_size b =? 16)) (blocks x2) = true) by (vm_compute; reflexivity).
  assert (H6 : existsb (fun b => (b_base b =? 4144) && (b_size b =? 16)) (blocks x2) = true) by (vm_compute; reflexivity).
  assert (H7 : value_at x2 D_T_INT 4112 = 7) by (vm_compute; reflexivity).
  assert (H8 : existsb (fun c => c_id c =? 1) (stack x2) = true) by (vm_compute; reflexivity).
  revert H1 H2 H3 H4 H5 H6 H7 H8. generalize x1 x2. intros s s' H1 H2 H3 H4 H5 H6 H7 H8.
  assert (Hal : forall s a, existsb (fun b => (b_base b =? a) && (b_size b =? 16)) (blocks s) = true -> allocated s a 16).
  { clear. intros s a H. apply existsb_exists in H as ([b n tr] & Hb & H). apply andb_true_iff in H as [Ha Hn]. cbn in Ha, Hn.
    apply Z.eqb_eq in Ha, Hn. subst. exists tr. exact Hb. }
  apply existsb_exists in H2 as (c & Hc & H2). apply andb_true_iff in H2 as [Hi Ha]. apply Z.eqb_eq in Hi.
  apply existsb_exists in Ha as (a & Ha & He). apply Z.eqb_eq in He. subst a.
  apply existsb_exists in H8 as (c' & Hc' & Hi'). apply Z.eqb_eq in Hi'.
  split; [exact H1|]. split; [exact (use_scope _ _ _ c Hc Ha)|]. split; [apply Hal, H3|]. split; [exact H4|].
  split; [apply Hal, H5|]. split; [apply Hal, H6|]. split; [exact H7|]. exists 1. split; eauto.
Qed.
