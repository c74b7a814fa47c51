(** Proofs about what the REPL tells about a name; for C73. *)
From Coq Require Import ZArith List String Ascii Bool Lia.
From Verif Require Import CInt Tree State Eval Lexer Grammar Repl Session SpecRun SpecNames SpecVars SpecPtr SpecExpr SpecLexer SpecScan SpecSyntax SpecSession SpecPrint SpecInspect.
From Verif Require Import SpecParser ParserFacts AdjacentFacts StepsFacts RunFacts RunRules NameFacts ExprFacts VarFacts PtrFacts SessionFacts SessionFacts2 PrintFacts.
Import ListNotations.
Local Open Scope string_scope.
Local Open Scope Z_scope.
Local Open Scope list_scope.

Section Inspect.
Variable E : env.
Variable H : host.

(** The line [? x]. *)
Lemma inspect_line se x line : typed H se [p "?"; IDENTIFIER x] line ->
  exists st, l_cond st = INITIAL /\ forall r, repl_round E H se line r <->
    (exists n out s, inspect E H n (string_of_list_ascii x) (se_eval se) = Ok out s /\ r = Continues out (mksession st (se_names se) s)) \/
    (exists n r0, bind (inspect E H n (string_of_list_ascii x)) (fun _ => ret NULL) (se_eval se) = r0 /\ r0 <> State.Fuel /\ (forall v s, r0 <> Ok v s) /\ r = Ends r0).
Proof.
  intros Ty. assert (Nt : ~ In typedef_token (line_text (LInspect x))) by (cbn; intros [J|[J|[]]]; discriminate J).
  assert (Ni : forall s, LInspect x <> LInclude s) by discriminate.
  destruct (parse_line H se (LInspect x) line _ _ _ _ Ty I Ni Nt eq_refl eq_refl) as (st & C & P). rewrite set_fresh_same in P.
  exists st. split; [exact C|]. intros r. split.
  - intros [se0 Q|Q|Q|t0 se0 fuel s names Q Ni' Ev Nm|t0 se0 fuel v s out names Q Ni' Ev Nv Nm Pp|t0 se0 fuel v s Q Ni' Ev Pp|t0 se0 fuel r0 Q Ni' Ev Nf Ns|y se0 fuel out s Q Ev|y se0 fuel r0 Q Ev Nf Ns];
      apply P in Q; try discriminate Q; injection Q as -> ->; try discriminate Ni'.
    + left. exists fuel, out, s. split; [exact Ev|reflexivity].
    + right. exists fuel, r0. auto.
  - pose proof (proj2 (P _) eq_refl) as Q. intros [(n & out & s & Ev & ->)|(n & r0 & Ev & Nf & Ns & ->)].
    + exact (rr_inspect E H se line _ _ n out s Q Ev).
    + exact (rr_inspect_ends E H se line _ _ n r0 Q Ev Nf Ns).
Qed.

(** If all that comes out of the inspection is [R]. *)
Lemma inspect_ok se x line out s : typed H se [p "?"; IDENTIFIER x] line ->
  (forall n, inspect E H n (string_of_list_ascii x) (se_eval se) = State.Fuel \/ inspect E H n (string_of_list_ascii x) (se_eval se) = Ok out s) ->
  (exists n, inspect E H n (string_of_list_ascii x) (se_eval se) = Ok out s) ->
  exists st, l_cond st = INITIAL /\ forall r, repl_round E H se line r <-> r = Continues out (mksession st (se_names se) s).
Proof.
  intros Ty A (n & N). destruct (inspect_line se x line Ty) as (st & C & L). exists st. split; [exact C|]. intros r. rewrite L. split.
  - intros [(m & out' & s' & Ev & ->)|(m & r0 & Ev & Nf & Ns & ->)]; destruct (A m) as [F|F].
    + congruence.
    + rewrite F in Ev. injection Ev as <- <-. reflexivity.
    + unfold bind in Ev. rewrite F in Ev. congruence.
    + unfold bind in Ev. rewrite F in Ev. subst r0. now destruct (Ns NULL s).
  - intros ->. left. eauto.
Qed.
Lemma inspect_stops se x line (R : res text) : typed H se [p "?"; IDENTIFIER x] line -> SpecRun.stops R -> R <> State.Fuel ->
  (forall n, inspect E H n (string_of_list_ascii x) (se_eval se) = State.Fuel \/ inspect E H n (string_of_list_ascii x) (se_eval se) = R) ->
  (exists n, inspect E H n (string_of_list_ascii x) (se_eval se) = R) ->
  forall r, repl_round E H se line r <-> r = Ends (recast R).
Proof.
  intros Ty S Nf A (n & N). destruct (inspect_line se x line Ty) as (st & C & L). intros r. rewrite L. split.
  - intros [(m & out' & s' & Ev & ->)|(m & r0 & Ev & Nf' & Ns & ->)]; destruct (A m) as [F|F].
    + congruence.
    + rewrite F in Ev. now destruct (S out' s').
    + unfold bind in Ev. rewrite F in Ev. congruence.
    + unfold bind in Ev. rewrite F in Ev. subst r0. f_equal. destruct R; try reflexivity. now destruct (S a s).
  - intros ->. right. exists n, (recast R). unfold bind. rewrite N. destruct R; repeat split; try congruence; try discriminate.
Qed.

(** ** Words *)
Lemma number_desc c : tree_description_string (D_T c) = letters_of (number_words c).
Proof. destruct c; reflexivity. Qed.
Lemma pointer_desc t : tree_description_string (D_T_PTR t) = letters_of "pointer".
Proof. reflexivity. Qed.
Lemma described_stars s t out : described s t out -> exists a b, handle_pointer_type t = (a, b) /\
  (exists y, out = a ++ y /\ match view_comp s b with
    | Some c => exists z, cd_id c = T_IDENTIFIER z /\ y = chars z
    | None => b <> NULL /\ y = tree_description_string b end).
Proof.
  induction 1 as [c| |t out D (a & b & Hp & y & -> & V)|t c y V I|l V].
  - exists [], (D_T c). split; [reflexivity|]. exists (letters_of (number_words c)). split; [reflexivity|]. split; [discriminate|symmetry; apply number_desc].
  - exists [], D_T_VOID. split; [reflexivity|]. eexists. split; [reflexivity|]. split; [discriminate|reflexivity].
  - exists (letters_of "pointer to a " ++ a), b. split.
    + cbn [handle_pointer_type]. rewrite Hp, pointer_desc. reflexivity.
    + exists y. rewrite <- app_assoc. split; [reflexivity|exact V].
  - exists [], t. split; [destruct t; try discriminate V; reflexivity|]. exists (letters_of y). split; [reflexivity|]. rewrite V. exists y. split; [exact I|reflexivity].
  - exists [], (E_INCOMP_TYPE l). split; [reflexivity|]. eexists. split; [reflexivity|]. rewrite V. split; [discriminate|reflexivity].
Qed.
Lemma say_type s x obj d : match obj with T_LIVE_VAR t _ _ _ => described s t d | _ => False end ->
  print_object_type (string_of_list_ascii x) obj s = Ok (says_kind x d) s.
Proof.
  destruct obj; try contradiction. intros D. destruct (described_stars _ _ _ D) as (a & b & Hp & y & -> & V). unfold print_object_type, bind, get.
  rewrite Hp. unfold says_kind. unfold chars at 1. rewrite list_ascii_of_string_of_list_ascii. destruct (view_comp s b) as [c|].
  - destruct V as (z & -> & ->). unfold ret. f_equal. unfold chars, letters_of. rewrite <- !app_assoc. reflexivity.
  - destruct V as (N & ->). destruct b; try (now destruct N); unfold ret; f_equal; unfold chars, letters_of; rewrite <- !app_assoc; reflexivity.
Qed.
Lemma described_comps s s' t d : comps s' = comps s -> described s t d -> described s' t d.
Proof.
  intros C. assert (V : forall u, view_comp s' u = view_comp s u) by (intros []; cbn [view_comp]; rewrite ?C; reflexivity).
  induction 1; [apply desc_number|apply desc_void|apply desc_pointer; assumption|eapply desc_compound; [rewrite V|]; eassumption|apply desc_unfinished; rewrite V; assumption].
Qed.

(** ** The parts *)
Lemma gc_mem s s' : only_gc E s s' -> mem s' = mem s /\ comps s' = comps s.
Proof. intros (G & _). split; [apply (sg_mem _ _ G)|apply (sg_comps _ _ G)]. Qed.
Lemma shown_gc s s' t a arr n out : only_gc E s s' -> shown E s 0 (T_LIVE_VAR t a arr n) out -> shown E s' 0 (T_LIVE_VAR t a arr n) out.
Proof.
  intros G S. destruct (gc_mem _ _ G) as [M _]. destruct G as (_ & St & _).
  inversion S as [d0 c a0 arr0 n0 out0 Ic Hs D|d0 t0 a0 arr0 n0 out0 Hs O A|d0 a0 arr0 n0 out0 t0 Hs Nz A T|]; subst.
  - apply shown_number; auto. unfold value_at in *. rewrite M. exact D.
  - apply shown_pointer; rewrite ?M; auto.
  - apply shown_text; rewrite ?M; auto. unfold text_at in *. rewrite M. destruct T as (T1 & T2). split; [apply St, T1|exact T2].
Qed.
Lemma say_value s x obj v : shown E s 0 obj v -> print_object_value H (string_of_list_ascii x) obj s = Ok (says_value x v) s.
Proof.
  intros S. unfold print_object_value, show, bind, get. rewrite (shown_print E H _ _ _ S). unfold ret, says_value, chars, letters_of.
  rewrite list_ascii_of_string_of_list_ascii. reflexivity.
Qed.
Lemma say_place s x : exists file line_no, declared_at H s x file line_no /\
  print_object_locus H (string_of_list_ascii x) s = Ok (says_place x file line_no) s.
Proof.
  exists (fst (h_place H s (string_of_list_ascii x))), (print_integer (snd (h_place H s (string_of_list_ascii x)))). split; [split; [reflexivity|apply print_decimal]|].
  unfold print_object_locus, bind, get. destruct (h_place H s (string_of_list_ascii x)). unfold ret, says_place, chars, letters_of.
  rewrite list_ascii_of_string_of_list_ascii. reflexivity.
Qed.
Lemma at_fuel t s r n : runs E s t r -> evaluate_expr E n t s = State.Fuel \/ evaluate_expr E n t s = r.
Proof.
  intros R. assert (F : evaluate_expr E n t s = State.Fuel \/ evaluate_expr E n t s <> State.Fuel) by (destruct (evaluate_expr E n t s); auto; right; discriminate).
  destruct F as [F|F]; [left; exact F|right]. symmetry. apply (runs_fun E s t); [exact R|]. split; [exact F|eauto].
Qed.
Lemma found s x v : v <> NULL -> means s (string_of_list_ascii x) v -> resolve_identifier_global (T_IDENTIFIER (string_of_list_ascii x)) s = Ok v s.
Proof.
  intros N M. apply means_lookup in M; [|exact N]. rewrite <- M. reflexivity.
Qed.

(** ** Variables *)
Lemma var_runs s t a arr n : runs E s (T_LIVE_VAR t a arr n) (Ok (T_LIVE_VAR t a arr n) s).
Proof. apply lim_runs; [discriminate|]. apply lim_const. reflexivity. Qed.

Definition var_answer (s : state) (x : list ascii) (R : res text) : Prop :=
  (forall m, inspect E H m (string_of_list_ascii x) s = State.Fuel \/ inspect E H m (string_of_list_ascii x) s = R) /\
  exists m, inspect E H m (string_of_list_ascii x) s = R.

Lemma inspect_sizes s x t a arr n d v r : means s (string_of_list_ascii x) (T_LIVE_VAR t a arr n) -> described s t d -> shown E s 0 (T_LIVE_VAR t a arr n) v ->
  let obj := T_LIVE_VAR t a arr n in let s2 := after_tick E (after_tick E s) in
  runs E s2 (T_SIZEOF obj) r ->
  var_answer s x
    (bind (fun _ => r) (fun q => bind (show H q) (fun z => bind (if arr then ub else print_object_locus H (string_of_list_ascii x))
       (fun place => ret (says_kind x d ++ says_value x v ++ says_size x z ++ place)))) s2).
Proof.
  intros M D S obj s2 R.
  assert (Eq : forall m, inspect E H m (string_of_list_ascii x) s =
    bind (evaluate_expr E m (T_SIZEOF obj)) (fun q => bind (show H q) (fun z => bind (if arr then ub else print_object_locus H (string_of_list_ascii x))
       (fun place => ret (says_kind x d ++ says_value x v ++ says_size x z ++ place)))) s2).
  { intros m. subst obj. unfold inspect. rewrite (bind_eq _ _ _ _ _ _ _ (found s x (T_LIVE_VAR t a arr n) ltac:(discriminate) M)). cbv beta iota.
    rewrite (bind_eq _ _ _ _ _ _ _ (tick_eq E s)).
    assert (G : only_gc E s (after_tick E s)) by apply gc_only_tick. destruct (gc_mem _ _ G) as [_ Cs].
    rewrite (bind_eq _ _ _ _ _ _ _ (say_type (after_tick E s) x (T_LIVE_VAR t a arr n) d (described_comps _ _ _ _ Cs D))).
    unfold bind at 1 2. rewrite (say_value (after_tick E s) x (T_LIVE_VAR t a arr n) v (shown_gc _ _ _ _ _ _ _ G S)).
    unfold print_sizeof_object. unfold bind at 1. unfold bind at 1. rewrite tick_eq. fold s2. unfold bind.
    destruct (evaluate_expr E m (T_SIZEOF (T_LIVE_VAR t a arr n)) s2) as [q s3| | | | | | | |]; try reflexivity.
    destruct (show H q s3) as [z s4| | | | | | | |]; try reflexivity. unfold ret at 1.
    destruct ((if arr then ub else print_object_locus H (string_of_list_ascii x)) s4) as [pl s5| | | | | | | |]; try reflexivity.
    unfold ret, says_size, chars, letters_of. rewrite list_ascii_of_string_of_list_ascii. rewrite <- !app_assoc. reflexivity. }
  split.
  - intros m. rewrite Eq. destruct (at_fuel (T_SIZEOF obj) s2 r m R) as [F|F]; [left|right]; unfold bind; rewrite F; reflexivity.
  - destruct R as [Nf (m & F)]. exists m. rewrite Eq. unfold bind. rewrite F. reflexivity.
Qed.

Lemma live_answer s x t a arr n k d v : stack s <> [] -> means s (string_of_list_ascii x) (T_LIVE_VAR t a arr n) -> value_size s (T_LIVE_VAR t a arr n) k ->
  described s t d -> shown E s 0 (T_LIVE_VAR t a arr n) v ->
  (exists s', refuses E 16 s' /\ var_answer s x (NoMemory 16 s')) \/
  exists s' size, only_new E s [] s' /\ decimal (k mod 2 ^ 64) size /\
    var_answer s x (bind (if arr then ub else print_object_locus H (string_of_list_ascii x))
      (fun place => ret (says_kind x d ++ says_value x v ++ says_size x size ++ place)) s').
Proof.
  intros N M V D S. set (s2 := after_tick E (after_tick E s)).
  assert (G : only_gc E s s2) by (eapply gc_only_trans; apply gc_only_tick). destruct (gc_mem _ _ G) as [_ Cs].
  assert (N2 : only_new E s [] s2) by (apply only_new_gc; assumption).
  assert (St : stack s2 <> []) by (apply (only_new_nonempty E _ _ _ N2)).
  assert (Ts : forall u z, type_size s u z -> type_size s2 u z).
  { intros u z [c|u'|u' c Vc Ex]; constructor. 2: exact Ex. rewrite <- Vc. destruct u'; cbn [view_comp]; rewrite ?Cs; reflexivity. }
  assert (V2 : value_size s2 (T_LIVE_VAR t a arr n) k).
  { inversion V as [u p0 n0|u p0 n0 k0 Hz|u p0 n0 k0 Hz|u k0 Hz]; subst; [apply vs_array|apply vs_var, Ts, Hz|apply vs_type, Ts, Hz]. }
  destruct (size_of_value E s2 _ _ k s2 (var_runs s2 t a arr n) St V2) as [(s' & R & Rf)|(q & s' & R & Nw & (Sq & _) & U)].
  - left. exists s'. split; [exact Rf|]. exact (inspect_sizes s x t a arr n d v _ M D S R).
  - right. exists s', (print_integer (k mod 2 ^ 64)). split; [eapply only_new_trans0; eassumption|]. split; [apply print_decimal|].
    pose proof (inspect_sizes s x t a arr n d v _ M D S R) as A. unfold bind at 1 in A.
    assert (Sh : show H (T_LIVE_VAR (D_T D_T_ULONG) q false 0) s' = Ok (print_integer (k mod 2 ^ 64)) s').
    { unfold show, bind, get. rewrite (shown_print E H s' _ (print_integer (k mod 2 ^ 64))); [reflexivity|]. apply shown_number; [reflexivity| |].
      - apply (storage_sub E s' q 16 q 8); [exact Sq|lia|cbn; lia].
      - change (value_at s' D_T_ULONG q) with (unsigned_at (mem s') q 8). rewrite U. apply print_decimal. }
    rewrite (bind_eq _ _ _ _ _ _ _ Sh) in A. exact A.
Qed.

Lemma answer_ok se x line out s : typed H se [p "?"; IDENTIFIER x] line -> var_answer (se_eval se) x (Ok out s) ->
  exists st, l_cond st = INITIAL /\ forall r, repl_round E H se line r <-> r = Continues out (mksession st (se_names se) s).
Proof. intros Ty [A N]. eapply inspect_ok; eassumption. Qed.
Lemma answer_no_memory se x line k s : typed H se [p "?"; IDENTIFIER x] line -> var_answer (se_eval se) x (NoMemory k s) ->
  forall r, repl_round E H se line r <-> r = Ends (NoMemory k s).
Proof. intros Ty [A N]. apply (inspect_stops se x line (NoMemory k s) Ty); [intros ? ?; discriminate|discriminate|exact A|exact N]. Qed.
Lemma answer_ub se x line : typed H se [p "?"; IDENTIFIER x] line -> var_answer (se_eval se) x UB -> forall r, repl_round E H se line r <-> r = Ends UB.
Proof. intros Ty [A N]. apply (inspect_stops se x line UB Ty); [intros ? ?; discriminate|discriminate|exact A|exact N]. Qed.

Lemma inspect_variable se x line t a n k d v : let s := se_eval se in typed H se [p "?"; IDENTIFIER x] line -> stack s <> [] ->
  means s (string_of_list_ascii x) (T_LIVE_VAR t a false n) -> type_size s t k -> described s t d -> shown E s 0 (T_LIVE_VAR t a false n) v ->
  (exists s', refuses E 16 s' /\ forall r, repl_round E H se line r <-> r = Ends (NoMemory 16 s')) \/
  exists st s' size file line_no, l_cond st = INITIAL /\ only_new E s [] s' /\ decimal k size /\ declared_at H s' x file line_no /\
    forall r, repl_round E H se line r <->
      r = Continues (says_kind x d ++ says_value x v ++ says_size x size ++ says_place x file line_no) (mksession st (se_names se) s').
Proof.
  intros s Ty N M Ts D S.
  assert (K : 0 <= k < 2 ^ 64).
  { assert (K : exists c, k = width c \/ k = 8).
    { inversion S; subst; inversion Ts as [c1|t1|t1 c1 Vc]; subst; try discriminate Vc; first [exists D_T_INT; right; reflexivity|eexists; left; reflexivity]. }
    destruct K as (c & [->| ->]); [destruct c|]; cbn; lia. }
  destruct (live_answer s x t a false n k d v N M (vs_var _ _ _ _ _ Ts) D S) as [(s' & R & A)|(s' & size & Nw & Dk & A)].
  - left. exists s'. split; [exact R|]. eapply answer_no_memory; eassumption.
  - right. destruct (say_place s' x) as (file & ln & Da & Pl). rewrite (bind_eq _ _ _ _ _ _ _ Pl) in A.
    destruct (answer_ok se x line _ s' Ty A) as (st & C & L). exists st, s', size, file, ln. rewrite Z.mod_small in Dk by exact K. auto 10.
Qed.
Lemma inspect_array se x line t a n d v : let s := se_eval se in typed H se [p "?"; IDENTIFIER x] line -> stack s <> [] ->
  means s (string_of_list_ascii x) (T_LIVE_VAR (D_T_PTR t) a true n) -> described s (D_T_PTR t) d -> shown E s 0 (T_LIVE_VAR (D_T_PTR t) a true n) v ->
  (exists s', refuses E 16 s' /\ forall r, repl_round E H se line r <-> r = Ends (NoMemory 16 s')) \/
  (forall r, repl_round E H se line r <-> r = Ends UB).
Proof.
  intros s Ty N M D S. destruct (live_answer s x _ a true n n d v N M (vs_array _ _ _ _) D S) as [(s' & R & A)|(s' & size & Nw & Dk & A)].
  - left. exists s'. split; [exact R|]. eapply answer_no_memory; eassumption.
  - right. apply (answer_ub se x line Ty). exact A.
Qed.

(** A pointer to a structure without a name. *)
Lemma inspect_nameless se x line t a arr n c : let s := se_eval se in typed H se [p "?"; IDENTIFIER x] line ->
  means s (string_of_list_ascii x) (T_LIVE_VAR t a arr n) -> view_comp s (behind_pointers t) = Some c -> cd_id c = NULL ->
  forall r, repl_round E H se line r <-> r = Ends UB.
Proof.
  intros s Ty M V I. apply (answer_ub se x line Ty).
  assert (Q : forall m, inspect E H m (string_of_list_ascii x) s = UB).
  { intros m. unfold inspect. rewrite (bind_eq _ _ _ _ _ _ _ (found s x (T_LIVE_VAR t a arr n) ltac:(discriminate) M)). rewrite (bind_eq _ _ _ _ _ _ _ (tick_eq E s)).
    unfold bind at 1. unfold print_object_type, bind, get.
    assert (B : forall u, snd (handle_pointer_type u) = behind_pointers u).
    { induction u; try reflexivity. cbn [handle_pointer_type behind_pointers]. rewrite <- IHu. destruct (handle_pointer_type u); reflexivity. }
    specialize (B t). destruct (handle_pointer_type t) as [st b]. cbn [snd] in B. subst b.
    change (view_comp (after_tick E s) (behind_pointers t)) with (view_comp s (behind_pointers t)). rewrite V, I. reflexivity. }
  split; [intros m; right; apply Q|exists O; apply Q].
Qed.

(** ** Other names *)
Lemma inspect_nothing se x line : lookup (se_eval se) (string_of_list_ascii x) = NULL -> typed H se [p "?"; IDENTIFIER x] line ->
  exists st, l_cond st = INITIAL /\ forall r, repl_round E H se line r <->
    r = Continues (letters_of "Object not found" ++ [line_feed]) (mksession st (se_names se) (se_eval se)).
Proof.
  intros L Ty. apply (answer_ok se x line _ _ Ty).
  assert (Q : forall m, inspect E H m (string_of_list_ascii x) (se_eval se) = Ok (letters_of "Object not found" ++ [line_feed]) (se_eval se)).
  { intros m. unfold inspect. rewrite (bind_eq _ _ (resolve_identifier_global _) _ _ NULL (se_eval se)); [reflexivity|].
    cbn [resolve_identifier_global]. unfold gets. rewrite <- L. reflexivity. }
  split; [intros m; right; apply Q|exists O; apply Q].
Qed.
Lemma inspect_other se x line v w b : let s := se_eval se in typed H se [p "?"; IDENTIFIER x] line -> means s (string_of_list_ascii x) v -> other_kind v w b ->
  exists st s' place, l_cond st = INITIAL /\ only_gc E s s' /\
    (if b then exists file line_no, declared_at H s' x file line_no /\ place = says_place x file line_no else place = []) /\
    forall r, repl_round E H se line r <-> r = Continues (says_kind x (letters_of w) ++ place) (mksession st (se_names se) s').
Proof.
  intros s Ty M K. set (s1 := after_tick E s).
  assert (Q : exists place, (if b then exists file line_no, declared_at H s1 x file line_no /\ place = says_place x file line_no else place = []) /\
    forall m, inspect E H m (string_of_list_ascii x) s = Ok (says_kind x (letters_of w) ++ place) s1).
  { destruct (say_place s1 x) as (file & ln & Da & Pl).
    exists (if b then says_place x file ln else []). split; [destruct b; eauto|]. intros m.
    assert (Nv : v <> NULL) by (intros ->; inversion K).
    assert (Pt : print_object_type (string_of_list_ascii x) v s1 = Ok (says_kind x (letters_of w)) s1).
    { replace (says_kind x (letters_of w)) with (says_kind (list_ascii_of_string (string_of_list_ascii x)) (letters_of w)) by (rewrite list_ascii_of_string_of_list_ascii; reflexivity).
      destruct K; reflexivity. }
    unfold inspect. rewrite (bind_eq _ _ _ _ _ _ _ (found s x v Nv M)).
    destruct K; rewrite (bind_eq _ _ _ _ _ _ _ (tick_eq E s)); fold s1; rewrite (bind_eq _ _ _ _ _ _ _ Pt); unfold bind; rewrite ?Pl; reflexivity. }
  destruct Q as (place & Hp & Q). destruct (answer_ok se x line (says_kind x (letters_of w) ++ place) s1 Ty) as (st & C & L).
  - split; [intros m; right; apply Q|exists O; apply Q].
  - exists st, s1, place. split; [exact C|]. split; [apply gc_only_tick|]. split; [exact Hp|exact L].
Qed.
End Inspect.

Lemma inspect_semicolon E H se x line : l_cond (se_lex se) = INITIAL -> writes (is_type se) false [p "?"; IDENTIFIER x; p ";"] line ->
  forall r, repl_round E H se line r <-> r = Quits.
Proof.
  intros C W. apply (several_statements E H se line [LInspect x; LEmpty] [T_INSPECT (T_IDENTIFIER (string_of_list_ascii x)); T_EMPTY] (fresh (se_eval se)) C W).
  - cbn. lia.
  - repeat constructor.
  - cbn. intros [J|[J|[J|[]]]]; discriminate J.
  - reflexivity.
Qed.
Lemma inspect_type_name E H se x line : l_cond (se_lex se) = INITIAL -> writes (is_type se) false [p "?"; TYPE_NAME x] line ->
  (exists r, repl_round E H se line r) /\
  forall r, repl_round E H se line r -> exists st, r = Continues [] (mksession st (se_names se) (se_eval se)) /\ l_cond st = INITIAL.
Proof.
  intros C W. assert (Er : SpecParser.syntax_error REPL_T [p "?"; TYPE_NAME x]).
  { intros n t m Ha. pose proof (accepted_after REPL_T n _ t m [] (p "?") (TYPE_NAME x) [] Ha eq_refl) as B. change (class (TYPE_NAME x)) with (K "TYPE_NAME") in B.
    vm_compute in B; repeat (destruct B as [B|B]; [discriminate B|]); exact B. }
  destruct (rejected_line E H se line _ C W) as [X U]; [cbn; intros [J|[J|[]]]; discriminate J|exact Er|]. split; [exact X|].
  intros r R. destruct (U r R) as (st & -> & N). exists st. split; [reflexivity|]. apply N. cbn. intros t [<-|[<-|[]]]; split; discriminate.
Qed.
