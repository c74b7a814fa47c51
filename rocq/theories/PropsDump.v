(** Property theorems about the textual dump of trees: C76. *)
From Coq Require Import ZArith List String Ascii Bool Permutation.
From Verif Require Import Lang SpecLang CLang Lexer Dump SpecDump DumpFacts.
Import ListNotations.
Local Open Scope string_scope.
Local Open Scope list_scope.

(** ** C76: the dump of a tree *)

(** Different trees have different dumps, whatever the order of the properties; and no dump is the beginning of another. *)
Theorem C76_unique : forall d order o o', readable_names d -> any_order d order -> fits d o -> fits d o' ->
  tree_dump d order o = tree_dump d order o' -> o = o'.
Proof. intros d order o o' Rd Ord F F' Q. apply (dump_unique d order Rd Ord o o' 0 line_end line_end F F' Q). Qed.
Print Assumptions C76_unique.

Theorem C76_prefix : forall d order o o' r r', readable_names d -> any_order d order -> fits d o -> fits d o' ->
  tree_dump d order o ++ r = tree_dump d order o' ++ r' -> o = o' /\ r = r'.
Proof.
  intros d order o o' r r' Rd Ord F F' Q. unfold tree_dump in Q. rewrite <- !app_assoc in Q.
  destruct (dump_unique d order Rd Ord o o' 0 _ _ F F' Q) as [-> Q']. split; [reflexivity|]. apply app_inv_head in Q'. exact Q'.
Qed.
Print Assumptions C76_prefix.

(** Every property of a node is shown after its accessor, a tree one level deeper than the node. *)
Theorem C76_shows : forall d order depth name fs t x v f, readable_names d -> any_order d order -> In f d -> defines f name t ->
  fits_fields d (snd t) fs -> In (x, v) fs ->
  exists before after, tree_dump_1 d order depth (mknode name fs) =
    before ++ list_ascii_of_string (" " ++ fst t ++ "_" ++ x ++ ": ") ++ val_text d order (S depth) v ++ after.
Proof. exact node_shows. Qed.
Print Assumptions C76_shows.

(** This is so for the language of bic. *)
Theorem C76_bic : readable_names c_lang.
Proof.
  assert (D : forall l, (fix nodup (l : list string) := match l with [] => true | x :: l => negb (existsb (String.eqb x) l) && nodup l end) l = true -> NoDup l).
  { induction l as [|x l IH]; intros H; [constructor|]. apply andb_true_iff in H as [H1 H2]. constructor; [|auto]. intros Hi.
    apply negb_true_iff in H1. rewrite <- Bool.not_true_iff_false in H1. apply H1. apply existsb_exists. exists x. split; [exact Hi|apply String.eqb_refl]. }
  split; [apply D; vm_compute; reflexivity|]. intros name ps I.
  assert (W : forallb (fun e => forallb (fun c => negb (Ascii.eqb c " " || Ascii.eqb c ">"))%char (list_ascii_of_string (fst e)) &&
    (fix nodup (l : list string) := match l with [] => true | x :: l => negb (existsb (String.eqb x) l) && nodup l end) (map pname (snd e))) (nodes c_lang) = true)
    by (vm_compute; reflexivity).
  rewrite forallb_forall in W. specialize (W _ I). apply andb_true_iff in W as [W1 W2]. split; [|apply D, W2].
  cbn [fst] in W1. rewrite forallb_forall in W1. intros c Hc Hi. specialize (W1 c Hi). destruct Hc as [<-|[<-|[]]]; discriminate W1.
Qed.
Print Assumptions C76_bic.

(** The properties in the order of the description. *)
Definition as_listed (name : string) : list prop := match find (fun e => fst e =? name)%string (nodes c_lang) with Some (_, ps) => ps | None => [] end.
Lemma as_listed_order : any_order c_lang as_listed.
Proof.
  intros name ps I. unfold as_listed. destruct C76_bic as [N _]. replace (find _ (nodes c_lang)) with (Some (name, ps)); [apply Permutation_refl|].
  revert N I. generalize (nodes c_lang). induction l as [|[n q] l IH]; intros N I; [contradiction|]. cbn [find fst]. cbn [map fst] in N. inversion N as [|? ? Nx N']; subst.
  destruct I as [I|I]; [injection I as -> ->; rewrite String.eqb_refl; reflexivity|].
  destruct (n =? name)%string eqn:Q; [apply String.eqb_eq in Q; subst; exfalso; apply Nx; apply (in_map fst) in I; exact I|auto].
Qed.

(** [x = -7;] and its dump. *)
Definition chars (s : string) : list ascii := list_ascii_of_string s.
Definition ident (x : string) : node := mknode "T_IDENTIFIER" [("STR", VPrim (PString (chars x)))].
Definition assign : obj := OChain [mknode "T_ASSIGN" [("LHS", VTree (ONode (ident "x"))); ("RHS", VTree (ONode (mknode "T_INTEGER" [("VAL", VPrim (PInteger (-7)))])))]].
Definition nl : string := String "010" EmptyString.
Definition dq : string := String """" EmptyString.
Lemma fits_ident x : without [quote] (chars x) -> fits_node c_lang (ident x).
Proof.
  intros W. apply (f_fields c_lang "T_IDENTIFIER" [Of "STR" "string"]).
  - apply (find_some (fun e => fst e =? "T_IDENTIFIER")%string (nodes c_lang)). vm_compute. reflexivity.
  - repeat constructor. exact W.
Qed.
Example C76_nontrivial : fits c_lang assign /\ tree_dump c_lang as_listed assign = chars (
  nl ++ "<chain" ++
  nl ++ "  <tree T_ASSIGN tASSIGN_LHS: " ++
  nl ++ "    <tree T_IDENTIFIER tID_STR: " ++ dq ++ "x" ++ dq ++ ">" ++
  nl ++ "        tASSIGN_RHS: " ++
  nl ++ "    <tree T_INTEGER tINT_VAL: -7>" ++
  nl ++ "  >" ++
  nl ++ ">" ++ nl).
Proof.
  split; [|vm_compute; reflexivity]. constructor. intros n [<-|[]]. apply (f_fields c_lang "T_ASSIGN" [Tree "LHS"; Tree "RHS"]).
  - apply (find_some (fun e => fst e =? "T_ASSIGN")%string (nodes c_lang)). vm_compute. reflexivity.
  - constructor; [|constructor; [|constructor]]; constructor; [apply fits_ident; intros c [<-|[]] [H|[]]; discriminate H|].
    apply (f_fields c_lang "T_INTEGER" [Of "VAL" "integer"]); [|repeat constructor].
    apply (find_some (fun e => fst e =? "T_INTEGER")%string (nodes c_lang)). vm_compute. reflexivity.
Qed.

(** With quotes in strings it is false: one string constant, written with backslashes, looks like two. *)
Definition one_string (s : list ascii) : node := mknode "T_STRING" [("VAL", VPrim (PString s))].
Theorem C76_any_string_refuted : exists order s s1 s2, any_order c_lang order /\ In (Node "T_STRING" "Constant string" (Some ("tSTRING", [Of "VAL" "string"]))) c_lang /\
  tree_dump c_lang order (OChain [one_string s]) = tree_dump c_lang order (OChain [one_string s1; one_string s2]).
Proof.
  exists as_listed, (chars ("a" ++ dq ++ ">" ++ nl ++ "  <tree T_STRING tSTRING_VAL: " ++ dq ++ "b")), (chars "a"), (chars "b").
  split; [exact as_listed_order|]. split; [|vm_compute; reflexivity].
  apply (find_some (fun x => match x with Node n _ _ => n =? "T_STRING" | _ => false end)%string c_lang). vm_compute. reflexivity.
Qed.
Print Assumptions C76_any_string_refuted.
