(** Model of the garbage collector: src/gc.c and the function [mark_object] that src/gengc.cpp generates.
    Objects are addresses; the collector only sees the links between them. *)
From Coq Require Import ZArith List Bool.
Import ListNotations.
Local Open Scope Z_scope.

(** An object (src/gc.h:19-22): the mark, the link to the file name of its locus (src/tree.h:63-67; 0: none), and the
    trees [mark_object] visits: the tree properties of its type (src/gengc.cpp:5-22), or the elements of a CHAIN_HEAD
    (src/gengc.cpp:60-66).  [owned] are the other memory blocks freed with the object (src/gc.c:90-113).
    Simplification: only these parts of a tree are kept. *)
Record object := mkobj { reachable : bool; file : Z; kids : list Z; owned : list Z }.

(** The heap of objects; None: no object at this address. *)
Definition heap := Z -> option object.
(** Update of the heap. *)
Definition upd (h : heap) (a : Z) (o : option object) : heap := fun x => if x =? a then o else h x.
(** [obj->reachable = b]. *)
Definition set_mark (b : bool) (o : object) : object := mkobj b (file o) (kids o) (owned o).

(** The static variables of src/gc.c:5-9 and 158, the objects, and the calls of [free] so far.  [allocs] is the whole
    array: [alloc_array_sz] is its length once it is allocated. *)
Record gcstate := mkgc {
  gc_inhibited : nat; alloc_ptr : nat; allocs : option (list Z); collect_counter : Z; objects : heap; frees : list Z }.

(** Outcomes: [GUB] for access to memory that is no object or outside the array; [GFuel] for running out of fuel. *)
Inductive gres (A : Type) := GOk (a : A) | GUB | GFuel.
Arguments GOk {A} a.
Arguments GUB {A}.
Arguments GFuel {A}.
(** Sequencing. *)
Definition gbind {A B} (m : gres A) (f : A -> gres B) : gres B :=
  match m with GOk a => f a | GUB => GUB | GFuel => GFuel end.
(** A loop over a list. *)
Fixpoint gfold {A B} (f : A -> B -> gres A) (l : list B) (a : A) : gres A :=
  match l with [] => GOk a | x :: l => gbind (f a x) (gfold f l) end.

(** [mark_tree], src/gc.c:11-22, given [mark_object]. *)
Definition mark_tree (mark_object : heap -> Z -> gres heap) (h : heap) (a : Z) : gres heap :=
  if a =? 0 then GOk h else
  match h a with
  | None => GUB
  | Some o => gbind (if file o =? 0 then GOk h else mark_object h (file o)) (fun h => mark_object h a)
  end.

(** [mark_object], src/gengc.cpp:47-67 and 5-22; the fuel bounds the depth of the recursion. *)
Fixpoint mark_object (fuel : nat) (h : heap) (a : Z) : gres heap :=
  match fuel with
  | O => GFuel
  | S fuel =>
      if a =? 0 then GOk h else
      match h a with
      | None => GUB
      | Some o =>
          let h := upd h a (Some (set_mark true o)) in
          gbind (mark_tree (mark_object fuel) h (file o)) (fun h =>
          gfold (mark_tree (mark_object fuel)) (kids o) h)
      end
  end.

(** The order of [compare_allocs], src/gc.c:24-35: larger addresses first. *)
Definition compare_allocs (p1 p2 : Z) : Z := if p1 <? p2 then 1 else if p2 <? p1 then -1 else 0.

(** [bsearch] of libc on the [n] entries from [lo] of the array [l]: used by [is_object], src/gc.c:37-44.  The fuel is the
    number of entries. *)
Fixpoint bsearch (fuel : nat) (key : Z) (l : list Z) (lo n : nat) : bool :=
  match fuel, n with
  | _, O => false
  | O, _ => false
  | S fuel, _ =>
      let m := Nat.div2 n in
      let c := compare_allocs key (nth (lo + m) l 0) in
      if c =? 0 then true
      else if c <? 0 then bsearch fuel key l lo m
      else bsearch fuel key l (lo + S m) (n - S m)
  end.

(** [is_object], src/gc.c:37-44. *)
Definition is_object (l : list Z) (ptr : nat) (a : Z) : bool := bsearch ptr a l 0 ptr.

(** [mark_potential_root], src/gc.c:46-55. *)
Definition mark_potential_root (fuel : nat) (l : list Z) (ptr : nat) (h : heap) (a : Z) : gres heap :=
  if is_object l ptr a then mark_object fuel h a else GOk h.
(** [mark_stack], src/gc.c:59-66, for the words on the stack. *)
Definition mark_stack (fuel : nat) (l : list Z) (ptr : nat) (words : list Z) (h : heap) : gres heap :=
  gfold (mark_potential_root fuel l ptr) words h.
(** [mark_static], src/gc.c:78-84, for the contents of the registered static variables. *)
Definition mark_static (fuel : nat) (l : list Z) (ptr : nat) (statics : list Z) (h : heap) : gres heap :=
  gfold (fun h a => if is_object l ptr a then mark_tree (mark_object fuel) h a else GOk h) statics h.

(** [dealloc_object], src/gc.c:86-116. *)
Definition dealloc_object (h : heap) (fs : list Z) (a : Z) (o : object) : heap * list Z := (upd h a None, fs ++ owned o ++ [a]).

(** One round of the loop of [sweep], src/gc.c:118-128. *)
Definition sweep_one (st : heap * list Z * list Z) (a : Z) : gres (heap * list Z * list Z) :=
  let '(h, fs, done) := st in
  match h a with
  | None => GUB
  | Some o => if reachable o then GOk (upd h a (Some (set_mark false o)), fs, done ++ [a])
              else let '(h, fs) := dealloc_object h fs a o in GOk (h, fs, done ++ [0])
  end.
(** [sweep], src/gc.c:118-128, on the first [alloc_ptr] entries; gives the objects, the calls of free and the new
    entries. *)
Definition sweep (entries : list Z) (h : heap) (fs : list Z) : gres (heap * list Z * list Z) :=
  gfold sweep_one entries (h, fs, []).

(** [qsort] with [compare_allocs] (src/gc.c:132-133): insertion sort gives the same result, since equal entries
    cannot be told apart. *)
Fixpoint insert (a : Z) (l : list Z) : list Z :=
  match l with
  | [] => [a]
  | b :: l' => if compare_allocs a b <=? 0 then a :: l else b :: insert a l'
  end.
(** See [insert]. *)
Definition qsort (l : list Z) : list Z := fold_right insert [] l.

(** The loop at src/gc.c:137-138. *)
Fixpoint run_back (l : list Z) (ptr : nat) : nat :=
  match ptr with
  | O => O
  | S p => if nth ptr l 0 =? 0 then run_back l p else ptr
  end.

(** [fixup_alloc_array], src/gc.c:130-141.  The loop reads [allocs[alloc_ptr]], which is outside the array when the array is
    full. *)
Definition fixup_alloc_array (l : list Z) (ptr : nat) : gres (list Z * nat) :=
  let l := qsort (firstn ptr l) ++ skipn ptr l in
  if (length l <=? ptr)%nat then GUB else GOk (l, S (run_back l ptr)).

(** [collect], src/gc.c:143-154, with the words on the stack and the values of the static variables.  Without an array there is
    nothing to sort and the loop of the fix-up reads through a null pointer only if [alloc_ptr] is positive. *)
Definition collect (fuel : nat) (words statics : list Z) (g : gcstate) : gres gcstate :=
  match allocs g with
  | None => GUB
  | Some l =>
      gbind (fixup_alloc_array l (alloc_ptr g)) (fun '(l, ptr) =>
      gbind (mark_stack fuel l ptr words (objects g)) (fun h =>
      gbind (mark_static fuel l ptr statics h) (fun h =>
      gbind (sweep (firstn ptr l) h (frees g)) (fun '(h, fs, entries) =>
      GOk (mkgc (gc_inhibited g) ptr (Some (entries ++ skipn ptr l)) (collect_counter g) h fs)))))
  end.

(** COLLECT_TREE_ALLOC, src/gc.c:9. *)
Definition COLLECT_TREE_ALLOC : Z := 2000.

(** [maybe_collect], src/gc.c:156-167. *)
Definition maybe_collect (fuel : nat) (words statics : list Z) (g : gcstate) : gres gcstate :=
  match gc_inhibited g with
  | S _ => GOk g
  | O =>
      let c := collect_counter g in
      let g := mkgc (gc_inhibited g) (alloc_ptr g) (allocs g) (c + 1) (objects g) (frees g) in
      if COLLECT_TREE_ALLOC <? c
      then gbind (collect fuel words statics g) (fun g =>
           GOk (mkgc (gc_inhibited g) (alloc_ptr g) (allocs g) 0 (objects g) (frees g)))
      else GOk g
  end.

(** [alloc_array_sz] at the start, src/gc.c:6. *)
Definition initial_size : nat := Z.to_nat 10000.

(** [extend_allocs], src/gc.c:169-176: the memset clears as many bytes as there were entries (of eight bytes); the other new
    entries have the content [garbage] of the memory from realloc. *)
Definition extend_allocs (garbage : nat -> Z) (l : list Z) : list Z :=
  let n := length l in
  l ++ repeat 0 (n / 8) ++ map garbage (seq (n / 8) (n - n / 8)).

(** Assignment to an entry of the array. *)
Fixpoint set_nth (n : nat) (a : Z) (l : list Z) : list Z :=
  match l, n with
  | [], _ => []
  | _ :: l, O => a :: l
  | b :: l, S n => b :: set_nth n a l
  end.

(** [track_new_alloc], src/gc.c:178-187. *)
Definition track_new_alloc (garbage : nat -> Z) (a : Z) (g : gcstate) : gcstate :=
  let l := match allocs g with Some l => l | None => repeat 0 initial_size end in
  let l := if (length l <=? alloc_ptr g)%nat then extend_allocs garbage l else l in
  mkgc (gc_inhibited g) (S (alloc_ptr g)) (Some (set_nth (alloc_ptr g) a l)) (collect_counter g) (objects g) (frees g).

(** [inhibit_gc], src/gc.c:189-192. *)
Definition inhibit_gc (g : gcstate) : gcstate :=
  mkgc (S (gc_inhibited g)) (alloc_ptr g) (allocs g) (collect_counter g) (objects g) (frees g).
(** [enable_gc], src/gc.c:194-200. *)
Definition enable_gc (g : gcstate) : gcstate :=
  mkgc (pred (gc_inhibited g)) (alloc_ptr g) (allocs g) (collect_counter g) (objects g) (frees g).

(** [alloc_tree], src/gc.c:202-208, when calloc returns [a]. *)
Definition alloc_tree (fuel : nat) (words statics : list Z) (garbage : nat -> Z) (a : Z) (g : gcstate) : gres gcstate :=
  gbind (maybe_collect fuel words statics g) (fun g =>
  let g := mkgc (gc_inhibited g) (alloc_ptr g) (allocs g) (collect_counter g)
                (upd (objects g) a (Some (mkobj false 0 [] []))) (frees g) in
  GOk (track_new_alloc garbage a g)).

(** The collector when the program starts, src/gc.c:5-9, 158. *)
Definition gc_start : gcstate := mkgc 0 0 None 0 (fun _ => None) [].
