(** Property theorems about the dump of trees as graphs: C77. *)
From Coq Require Import ZArith List String Ascii Bool Permutation.
From Verif Require Import Lang SpecLang CLang Lexer Dump SpecDump PropsDump Dot SpecDot DotFacts.
Import ListNotations.
Local Open Scope string_scope.
Local Open Scope list_scope.

(** ** C77: the picture of a tree *)

(** The picture has all nodes, values, properties and elements of chains of the tree, and nothing else. *)
Theorem C77_picture : forall order o s, complete order o -> (In s (tree_dump_dot order o) <-> drawn o s).
Proof. exact picture. Qed.
Print Assumptions C77_picture.

(** The labels of values are the values. *)
Theorem C77_text : forall p, reads p (dot_text p).
Proof. exact dot_text_reads. Qed.
Print Assumptions C77_text.

(** Each element of a chain has a cluster, with the picture of the element in it. *)
Theorem C77_cluster : forall order c before n after, exists l r,
  tree_dump_dot order (DChain c (before ++ n :: after)) = l ++ Open c (List.length before) :: tree_dump_dot order (DNode n) ++ Close :: r.
Proof. exact cluster. Qed.
Print Assumptions C77_cluster.

(** All values of a node go to one node of the graph: it shows the value of the property that comes last.  The node is anywhere in the tree. *)
Theorem C77_label : forall order o a name fs before pv after p,
  complete order o -> inside (mkd a name fs) o -> (forall n, inside n o -> addr n = a -> n = mkd a name fs) ->
  order name = before ++ pv :: after -> In (pname pv, DPrim p) fs ->
  (forall q, In q after -> exists o', In (pname q, DTree o') fs) ->
  last_label a (tree_dump_dot order o) = Some (dot_text p).
Proof. exact label_inside. Qed.
Print Assumptions C77_label.

(** So the picture does not show all values: whatever the order of the properties, there are different trees of the language of bic with the
    same picture. *)
Theorem C77_values_refuted : forall order, any_order c_lang order -> exists n n', n <> n' /\
  complete order (DNode n) /\ complete order (DNode n') /\ same_picture (tree_dump_dot order (DNode n)) (tree_dump_dot order (DNode n')).
Proof. exact values_lost. Qed.
Print Assumptions C77_values_refuted.

(** The picture of [x = -7; x;]. *)
Definition ident_at (a : Z) : dnode := mkd a "T_IDENTIFIER" [("STR", DPrim (PString (chars "x")))].
Definition assign_at : dnode := mkd 2 "T_ASSIGN" [("LHS", DTree (DNode (ident_at 3))); ("RHS", DTree (DNode (mkd 4 "T_INTEGER" [("VAL", DPrim (PInteger (-7)))])))].
Definition program : dobj := DChain 1 [assign_at; ident_at 5].
Example C77_nontrivial : complete as_listed program /\
  tree_dump_dot as_listed program = [
    Open 1 0; Object 2 "T_ASSIGN";
      Edge 2 3 "LHS"; Object 3 "T_IDENTIFIER"; Value 3 (chars "x"); ValueEdge 3 "STR";
      Edge 2 4 "RHS"; Object 4 "T_INTEGER"; Value 4 (chars "-7"); ValueEdge 4 "VAL"; Close;
    Open 1 1; Object 5 "T_IDENTIFIER"; Value 5 (chars "x"); ValueEdge 5 "STR"; Close;
    Next 2 5 1 1] /\
  last_label 4 (tree_dump_dot as_listed program) = Some (chars "-7") /\
  inside (mkd 4 "T_INTEGER" [("VAL", DPrim (PInteger (-7)))]) program /\
  (forall n, inside n program -> addr n = 4%Z -> n = mkd 4 "T_INTEGER" [("VAL", DPrim (PInteger (-7)))]) /\
  as_listed "T_INTEGER" = [] ++ Of "VAL" "integer" :: [].
Proof.
  assert (I : forall n, inside n program -> In n [assign_at; ident_at 3; mkd 4 "T_INTEGER" [("VAL", DPrim (PInteger (-7)))]; ident_at 5]).
  { assert (L : forall n a nm x p, inside n (DNode (mkd a nm [(x, DPrim p)])) -> n = mkd a nm [(x, DPrim p)]).
    { intros n a nm x p H. inversion H as [| |? ? ? ? y o Hi Ho]; subst; [reflexivity|]. destruct Hi as [Hi|[]]. discriminate Hi. }
    intros n H. inversion H as [|? m ? ? Hm Hn|]; subst. destruct Hm as [<-|[<-|[]]].
    - inversion Hn as [| |? ? ? ? y o Hi Ho]; subst; [left; reflexivity|].
      destruct Hi as [Hi|[Hi|[]]]; injection Hi as _ <-; apply L in Ho; subst; cbn; auto.
    - apply L in Hn. subst. cbn. auto. }
  split; [|split; [vm_compute; reflexivity|split; [vm_compute; reflexivity|split; [|split; [|vm_compute; reflexivity]]]]].
  - intros a name fs H. apply I in H.
    destruct H as [H|[H|[H|[H|[]]]]]; injection H as <- <- <-; (split; [repeat constructor; cbn; intuition discriminate|vm_compute; apply Permutation_refl]).
  - apply (in_chain _ assign_at); [left; reflexivity|]. apply (in_field _ _ _ _ "RHS" (DNode (mkd 4 "T_INTEGER" [("VAL", DPrim (PInteger (-7)))]))); [right; left; reflexivity|constructor].
  - intros n H E. apply I in H. destruct H as [<-|[<-|[<-|[<-|[]]]]]; try discriminate E. reflexivity.
Qed.
