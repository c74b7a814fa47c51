(** Model of src/list.c and of the chain helpers of src/tree.h.

    A [list] cell is identified by its address.  The heap gives the [next] and
    [prev] fields of every cell.  Simplification: the heap is total, so a
    dereference of an invalid pointer is not detected here; the statements
    only speak about well-formed chains, on which none happens. *)
From Coq Require Import ZArith List Bool.
Import ListNotations.
Local Open Scope Z_scope.

(** src/list.h:11-13 [struct list { struct list *next, *prev; }]. *)
Record heap := mkheap { nxt : Z -> Z; prv : Z -> Z }.

(** src/list.c:26-27 writes [NULL]. *)
Definition NULLP : Z := 0.

(** C assignment [a->next = v], used throughout src/list.c:4-40. *)
Definition set_next (h : heap) (a v : Z) : heap :=
  mkheap (fun x => if x =? a then v else nxt h x) (prv h).

(** C assignment [a->prev = v], used throughout src/list.c:4-40. *)
Definition set_prev (h : heap) (a v : Z) : heap :=
  mkheap (nxt h) (fun x => if x =? a then v else prv h x).

(** src/list.h:22-24 [INIT_LIST]. *)
Definition INIT_LIST (h : heap) (p : Z) : heap := set_prev (set_next h p p) p p.

(** src/list.c:4-10 [_list_add]. *)
Definition list_add_between (h : heap) (new prev next : Z) : heap :=
  let h := set_prev h next new in
  let h := set_prev h new prev in
  let h := set_next h new next in
  set_next h prev new.

(** src/list.c:12-15 [list_add]. *)
Definition list_add (h : heap) (new head : Z) : heap :=
  list_add_between h new head (nxt h head).

(** src/list.c:17-20 [list_add_tail]. *)
Definition list_add_tail (h : heap) (new head : Z) : heap :=
  list_add_between h new (prv h head) head.

(** src/list.c:22-28 [list_del]. *)
Definition list_del (h : heap) (entry : Z) : heap :=
  let h := set_next h (prv h entry) (nxt h entry) in
  let h := set_prev h (nxt h entry) (prv h entry) in
  let h := set_next h entry NULLP in
  set_prev h entry NULLP.

(** src/list.c:30-40 [list_splice]. *)
Definition list_splice (h : heap) (from head : Z) : heap :=
  let first := nxt h from in
  let end_ := prv h from in
  let h := set_prev h first head in
  let h := set_next h head first in
  let h := set_next h end_ (nxt h head) in
  set_prev h (nxt h head) end_.

(** src/list.c:42-45 [list_empty]. *)
Definition list_empty (h : heap) (head : Z) : bool := nxt h head =? head.

(** src/tree.h:144-147 [tree_chain]; the model identifies a tree with the address
    of its [chain] field. *)
Definition tree_chain (h : heap) (new chain : Z) : heap := list_add_tail h new chain.

(** src/tree.h:149-152 [tree_unchain]. *)
Definition tree_unchain (h : heap) (obj : Z) : heap := list_del h obj.

(** src/tree.h:121-126 [tree_chain_head]; [marker] is the freshly made CHAIN_HEAD,
    whose links [tree_make] initialised (src/tree.c:5-11). *)
Definition tree_chain_head (h : heap) (marker head : Z) : heap :=
  list_add (INIT_LIST h marker) head marker.

(** src/list.h:38-41 [list_for_each] / src/tree.h:154-156 [for_each_tree]: the elements
    visited, [None] when the traversal has not come back to the head within
    [fuel] steps. *)
Fixpoint walk (fuel : nat) (h : heap) (pos head : Z) : option (list Z) :=
  if pos =? head then Some [] else
  match fuel with
  | O => None
  | S n => match walk n h (nxt h pos) head with
           | Some l => Some (pos :: l)
           | None => None
           end
  end.

(** src/list.h:38-41, started at the first element. *)
Definition list_for_each (fuel : nat) (h : heap) (head : Z) : option (list Z) :=
  walk fuel h (nxt h head) head.

(** The same traversal along [prev] (no C counterpart, used to state that both
    directions agree). For the lists of /repo/src/list.h:8-41. *)
Fixpoint walk_back (fuel : nat) (h : heap) (pos head : Z) : option (list Z) :=
  if pos =? head then Some [] else
  match fuel with
  | O => None
  | S n => match walk_back n h (prv h pos) head with
           | Some l => Some (pos :: l)
           | None => None
           end
  end.

(** src/tree.h:161-169 [tree_splice_chains]: the loop of [for_each_tree_safe]
    (src/list.h:43-47) with body [list_del; tree_chain]. *)
Fixpoint splice_loop (fuel : nat) (h : heap) (pos n dest src : Z) : option heap :=
  if pos =? src then Some h else
  match fuel with
  | O => None
  | S f =>
      let h := list_del h pos in
      let h := tree_chain h pos dest in
      splice_loop f h n (nxt h n) dest src
  end.

(** src/tree.h:161-169 [tree_splice_chains]. *)
Definition tree_splice_chains (fuel : nat) (h : heap) (dest src : Z) : option heap :=
  let pos := nxt h src in
  splice_loop fuel h pos (nxt h pos) dest src.
