(** C48: the fields of the node types generated from a language description. *)
From Coq Require Import String List Bool.
From Verif Require Import Lang SpecLang CLang LangFacts LangFacts2.
Import ListNotations.
Local Open Scope string_scope.
Local Open Scope list_scope.

(** C48.  The texts accepted are those of the descriptions that declare base types before using them; a definition starting with
    the word deftype instead of a parenthesis ends the file silently. *)
Theorem C48_accepted toks :
  (exists l, lang_read toks = Some l) <->
  exists d rest, toks = text d ++ rest /\ (rest = [] \/ exists r, rest = DEFTYPE :: r) /\ well_formed d.
Proof. exact (accepted toks). Qed.
Print Assumptions C48_accepted.
Theorem C48_rest_ignored d r : lang_read (text d ++ DEFTYPE :: r) = lang_read (text d).
Proof. exact (rest_ignored d r). Qed.
Print Assumptions C48_rest_ignored.

(** C48.  Every node type has exactly the listed properties, the k-th of a base type in the k-th field of that base type. *)
Theorem C48_layout d l : lang_read (text d) = Some l ->
  Forall2 (fun node entry => fst entry = fst node /\
    forall n f t, (exists i, map_at n (snd entry) = Some i /\ memberName i = f /\ type (baseType i) = t) <-> field_of d (snd node) n f t)
  (nodes d) (treeTypes l).
Proof. exact (layout d l). Qed.
Print Assumptions C48_layout.

(** C48.  The fields declared are those that some node type needs, so fields are shared by the node types. *)
Theorem C48_declared d l : lang_read (text d) = Some l -> forall t f, In (t, f) (declarations l) <-> needed d t f.
Proof. exact (declared d l). Qed.
Print Assumptions C48_declared.

(** C48.  Every field is declared once, and the properties of one node type are in different fields. *)
Theorem C48_declared_once d l : lang_read (text d) = Some l -> separate d -> NoDup (map snd (declarations l)).
Proof. exact (declared_once d l). Qed.
Print Assumptions C48_declared_once.
Theorem C48_disjoint d l : lang_read (text d) = Some l -> separate d ->
  forall x m n i n' j, In (x, m) (treeTypes l) -> map_at n m = Some i -> map_at n' m = Some j -> n <> n' -> memberName i <> memberName j.
Proof. exact (disjoint d l). Qed.
Print Assumptions C48_disjoint.

(** The condition on the names is needed: with a base type t1, the first property of it and the eleventh tree of a node type share
    the field t10. *)
Theorem C48_disjoint_refuted : exists d l x m n i n' j, lang_read (text d) = Some l /\
  In (x, m) (treeTypes l) /\ map_at n m = Some i /\ map_at n' m = Some j /\ n <> n' /\ memberName i = memberName j.
Proof.
  set (d := [Bases [("t1", "int")]; Node "N" "n" (Some ("tN", Of "X" "t1" :: map Tree ["a"; "b"; "c"; "d"; "e"; "f"; "g"; "h"; "i"; "j"; "k"]))]).
  destruct (lang_read (text d)) as [l|] eqn:E; [|vm_compute in E; discriminate E].
  exists d, l. vm_compute in E. inversion E; subst l. clear E. eexists _, _, "X", _, "k", _.
  split; [reflexivity|]. split; [left; reflexivity|]. split; [reflexivity|]. split; [reflexivity|]. split; [discriminate|reflexivity].
Qed.
Print Assumptions C48_disjoint_refuted.

(** The description of bic's trees is accepted and its names of base types are separate, so the theorems apply to it. *)
Example C48_example : (exists l, lang_read (text c_lang) = Some l) /\ separate c_lang.
Proof.
  split; [destruct (lang_read (text c_lang)) eqn:E; [eauto|vm_compute in E; discriminate E]|].
  split; [vm_compute; intuition discriminate|].
  set (L := "t" :: map fst (bases c_lang)). vm_compute in L.
  assert (G : forall b, In b L -> match rev (list_ascii_of_string b) with [] => True | c :: _ => Nat.leb 48 (Ascii.nat_of_ascii c) && Nat.leb (Ascii.nat_of_ascii c) 57 = false end).
  { intros b I. unfold L in I. repeat (destruct I as [<-|I]; [vm_compute; auto|]). destruct I. }
  intros b c s I J [Ns D] ->. specialize (G _ I). rewrite list_app_s, rev_app_distr in G.
  destruct (rev (list_ascii_of_string s)) as [|x r] eqn:R.
  - apply (f_equal (@rev _)) in R. rewrite rev_involutive in R. destruct s; [auto|discriminate R].
  - cbn -[Nat.leb Ascii.nat_of_ascii] in G. apply Forall_rev in D. rewrite R in D. inversion D as [|? ? H _]; subst. destruct H as [H1 H2]. apply PeanoNat.Nat.leb_le in H1, H2. now rewrite H1, H2 in G.
Qed.
Example C48_example_fields :
  option_map (fun l => option_map (map (fun e => (fst e, memberName (snd e), type (baseType (snd e))))) (map_at "T_CLOSURE" (treeTypes l))) (lang_read (text c_lang)) =
    Some (Some [("ARG_TYPES", "t0", "tree"); ("RET_TYPE", "t1", "tree"); ("FN", "t2", "tree");
      ("CIF", "ffi_cif0", "ffi_cif *"); ("TYPES", "ffi_types0", "ffi_type **"); ("CLOSURE", "ffi_closure0", "ffi_closure *")]) /\
  option_map (fun l => List.length (declarations l)) (lang_read (text c_lang)) = Some 21.
Proof. split; vm_compute; reflexivity. Qed.
