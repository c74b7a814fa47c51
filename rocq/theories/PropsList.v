(** Property theorems about chains: C33 and C34. *)
From Coq Require Import ZArith List Bool Lia.
From Verif Require Import ListC ListCSpec ListCFacts.
Import ListNotations.
Local Open Scope Z_scope.

(** C33.  Starting from any heap that represents some set of disjoint chains (in
    particular from any heap at all, with no chains), after any legal sequence of
    operations every chain represents the sequence obtained by performing the
    operations on sequences: the forward traversal visits exactly that sequence, the
    backward links give its reverse and the emptiness test is right. *)
Theorem C33_chains_are_sequences : forall os fuel h a,
  represents h a -> all_legal a os -> (length (cells a) + length os <= fuel)%nat ->
  exists h', crun fuel h os = Some h' /\
    forall hd l n, In (hd, l) (arun a os) -> (length l <= n)%nat ->
      list_for_each n h' hd = Some l /\
      walk_back n h' (prv h' hd) hd = Some (rev l) /\
      (list_empty h' hd = true <-> l = []).
Proof.
  intros os fuel h a Hr Hl Hf.
  destruct (run_refines os fuel h a Hr Hl Hf) as (h' & E & [Hnd Hch]).
  exists h'. split; [exact E|]. intros hd l n Hin Hn.
  specialize (Hch hd l Hin). split; [apply for_each_chain; auto|]. split.
  - destruct Hch as [Hd Hs]. apply walk_back_seg; auto. inversion Hd; auto.
  - apply list_empty_chain; auto.
Qed.
Print Assumptions C33_chains_are_sequences.

(** A deleted element has both links cleared. *)
Theorem C33_deleted_is_unlinked : forall h head l1 e l2,
  chain h head (l1 ++ e :: l2) ->
  chain (tree_unchain h e) head (l1 ++ l2) /\
  nxt (tree_unchain h e) e = NULLP /\ prv (tree_unchain h e) e = NULLP.
Proof. exact list_del_chain. Qed.
Print Assumptions C33_deleted_is_unlinked.

Definition junk_heap : heap := mkheap (fun _ => 77) (fun _ => 78).

Example C33_nontrivial :
  let os := [OpInit 10; OpInit 20; OpAddTail 1 10; OpAddTail 2 10; OpAdd 3 10;
             OpAddTail 4 20; OpAdd 5 20; OpDel 1; OpSplice 10 20; OpAddTail 1 20] in
  represents junk_heap [] /\ all_legal [] os /\
  arun [] os = [(20, [1]); (10, [3; 2; 5; 4])] /\
  match crun 20 junk_heap os with
  | Some h => list_for_each 20 h 10 = Some [3; 2; 5; 4] /\ list_for_each 20 h 20 = Some [1]
  | None => False
  end.
Proof.
  cbv zeta. split; [split; [constructor|intros ? ? []]|].
  split; [|split; vm_compute; auto].
  simpl. repeat split; try lia; try tauto.
  exists 10, [3; 1; 2]. simpl. tauto.
Qed.

(** C34.  [list_splice] never produces the concatenation: whatever the two disjoint
    chains, a traversal of the destination never returns to its head. *)
Theorem C34_list_splice_diverges : forall h from fl head hl,
  chain h from fl -> chain h head hl ->
  (forall x, In x (from :: fl) -> ~ In x (head :: hl)) ->
  forall fuel, list_for_each fuel (list_splice h from head) head = None.
Proof. intros. eapply list_splice_diverges; eauto. Qed.
Print Assumptions C34_list_splice_diverges.

Example C34_nontrivial :
  match crun 20 junk_heap [OpInit 10; OpInit 20; OpAddTail 1 10; OpAddTail 2 20; OpAddTail 3 20] with
  | Some h => chain h 10 [1] /\ chain h 20 [2; 3] /\
      list_for_each 1000 (list_splice h 20 10) 10 = None
  | None => False
  end.
Proof.
  vm_compute. split; [|split; [|reflexivity]].
  - split; [|repeat split]. repeat constructor; simpl; intuition congruence.
  - split; [|repeat split]. repeat constructor; simpl; intuition congruence.
Qed.
