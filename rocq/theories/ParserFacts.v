(** Facts about the parsers: at most one derivation per input, and the derivations of the programs of SpecSyntax.v. *)
From Coq Require Import ZArith List String Ascii Bool Lia.
From Verif Require Import CInt Tree Lexer Grammar LR GrammarTables.
From Verif Require SpecSyntax.
Import ListNotations.
Local Open Scope string_scope.
Local Open Scope nat_scope.
Local Open Scope list_scope.

(** * The two automata *)

Definition terminals_of (T : target) := match T with REPL_T => repl_terminals | CSCRIPT_T => cscript_terminals end.
Definition states_of (T : target) := match T with REPL_T => repl_states | CSCRIPT_T => cscript_states end.
Definition firsts_of (T : target) := match T with REPL_T => repl_firsts | CSCRIPT_T => cscript_firsts end.

Lemma checked T : check T (terminals_of T) (states_of T) (firsts_of T) = true.
Proof. destruct T; [exact repl_checked|exact cscript_checked]. Qed.

Theorem one_derivation T w d d' : derives T (NT (translation_unit T)) w [] d -> derives T (NT (translation_unit T)) w [] d' -> d = d'.
Proof. exact (unambiguous T _ _ _ (checked T) w d d'). Qed.

Theorem one_tree T n w t t' m m' : parses T n w t m -> parses T n w t' m' -> t = t' /\ m = m'.
Proof.
  intros [d [H V]] [d' [H' V']]. rewrite (one_derivation _ _ _ _ H H') in V. rewrite V in V'. injection V' as -> ->. auto.
Qed.

(** The parser as a computation. *)
Definition run_parser (T : target) (fuel : nat) (w : list token) : option ptree :=
  parse T (terminals_of T) (states_of T) fuel w.

Lemma run_parser_ok T fuel w d : run_parser T fuel w = Some d -> derives T (NT (translation_unit T)) w [] d.
Proof. exact (parse_sound T _ _ _ w d). Qed.

(** The parser stops before the end of the input, or with more than one symbol. *)
Definition stops (T : target) (fuel : nat) (w : list token) : bool :=
  let c := run T (terminals_of T) (states_of T) fuel ([], w) in
  match step T (terminals_of T) (states_of T) c with
  | None => match c with ([_], []) => false | _ => true end
  | Some _ => false
  end.

Lemma stops_ok T fuel w : stops T fuel w = true -> forall n t m, ~ parses T n w t m.
Proof.
  unfold stops. intros H n t m [d [Hd _]].
  destruct (step _ _ _ (run _ _ _ fuel ([], w))) eqn:Hs; [discriminate H|].
  apply (rejected T _ _ _ (checked T) fuel w d); [exact Hs| |exact Hd].
  destruct (run _ _ _ fuel ([], w)) as [[|x [|y st]] [|c i]]; simpl in *; try discriminate H;
    first [right; discriminate | left; discriminate].
Qed.

(** * Values along derivations *)

Fixpoint values (l : list ptree) (n : Z) : list val * Z :=
  match l with
  | [] => ([], n)
  | d :: l => let (v, n) := value d n in let (vs, n) := values l n in (v :: vs, n)
  end.

Lemma value_node p l n : value (Node p l) n = let (vs, n) := values l n in p_act p (fun i => nth (pred i) vs VNone) n.
Proof. reflexivity. Qed.

Definition rd (T : target) (X : sym) (i r : list token) (n : Z) (v : val) (m : Z) : Prop :=
  exists d, derives T X i r d /\ value d n = (v, m).
Definition rdl (T : target) (Xs : list sym) (i r : list token) (n : Z) (vs : list val) (m : Z) : Prop :=
  exists l, derives_list T Xs i r l /\ values l n = (vs, m).

Lemma rdl_nil T i n : rdl T [] i i n [] n.
Proof. exists []. split; [constructor|reflexivity]. Qed.

Lemma rdl_tok T t Xs i r n vs m : rdl T Xs i r n vs m -> rdl T (class t :: Xs) (t :: i) r n (token_value t :: vs) m.
Proof.
  intros [l [H V]]. exists (Leaf t :: l). split; [econstructor; [apply derives_token|exact H]|].
  simpl. rewrite V. reflexivity.
Qed.

Lemma rdl_nt T X Xs i j r n v m vs m' : rd T X i j n v m -> rdl T Xs j r m vs m' -> rdl T (X :: Xs) i r n (v :: vs) m'.
Proof.
  intros [d [H V]] [l [H' V']]. exists (d :: l). split; [econstructor; eassumption|].
  simpl. rewrite V, V'. reflexivity.
Qed.

(** The production with a left and a right hand side. *)
Definition look (T : target) (a : nt) (rhs : list sym) : option production :=
  find (fun p => N.eqb (nt_num (p_lhs p)) (nt_num a) && syms_eqb (p_rhs p) rhs) (productions T).

Lemma look_some T a rhs p : look T a rhs = Some p -> In p (productions T) /\ p_lhs p = a /\ p_rhs p = rhs.
Proof.
  intros H. apply find_some in H as [H1 H2]. apply andb_true_iff in H2 as [H2 H3].
  apply N.eqb_eq in H2. apply nt_num_inj in H2. apply syms_eqb_eq in H3. auto.
Qed.

Lemma rd_node T a rhs p i r n vs m v m' : look T a rhs = Some p -> blocked p (next r) = false ->
  rdl T rhs i r n vs m -> p_act p (fun i => nth (pred i) vs VNone) m = (v, m') -> rd T (NT a) i r n v m'.
Proof.
  intros H Hb [l [Hl V]] Ha. destruct (look_some _ _ _ _ H) as [H1 [<- <-]]. exists (Node p l). split.
  - apply derives_node; assumption.
  - rewrite value_node, V. exact Ha.
Qed.
