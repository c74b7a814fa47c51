(** Specification of the collector: reachability, states of the program, collections. *)
From Coq Require Import ZArith List Relations.
From Verif Require Import Gc.
Import ListNotations.
Local Open Scope Z_scope.

(** Object [a] has a link to [b]. *)
Definition link (h : heap) (a b : Z) : Prop :=
  exists o, h a = Some o /\ b <> 0 /\ (file o = b \/ In b (kids o)).
(** [b] can be reached from [a] by links. *)
Definition reaches (h : heap) : Z -> Z -> Prop := clos_refl_trans_1n Z (link h).

(** Object [a] is marked. *)
Definition marked (h : heap) (a : Z) : Prop := exists o, h a = Some o /\ reachable o = true.
(** [a] is the address of an object. *)
Definition is_obj (h : heap) (a : Z) : Prop := h a <> None.
(** Every link leads to an object. *)
Definition closed (h : heap) : Prop := forall a b, link h a b -> is_obj h b.

(** [a] can be reached from a word on the stack or a static variable that holds an object's address. *)
Definition live (h : heap) (words statics : list Z) (a : Z) : Prop :=
  exists r, In r (words ++ statics) /\ is_obj h r /\ reaches h r a.

(** The two heaps have the same objects with the same contents except for marks. *)
Definition same_objects (h h' : heap) : Prop :=
  forall a, match h a, h' a with
            | Some o, Some o' => file o' = file o /\ kids o' = kids o /\ owned o' = owned o
            | None, None => True
            | _, _ => False
            end.

(** [h'] has exactly the objects of [h] that [keep], unchanged and not marked. *)
Definition only (keep : Z -> Prop) (h h' : heap) : Prop :=
  forall a, (keep a -> forall o, h a = Some o -> h' a = Some (mkobj false (file o) (kids o) (owned o))) /\
            (~ keep a \/ h a = None -> h' a = None).

(** What a collection does: the objects that are not live are freed, each once and with the memory it owns;
    the others stay as they are. *)
Definition collected (words statics : list Z) (g g' : gcstate) : Prop :=
  only (live (objects g) words statics) (objects g) (objects g') /\
  exists dead, NoDup dead /\ (forall a, In a dead <-> is_obj (objects g) a /\ ~ live (objects g) words statics a) /\
    frees g' = frees g ++ flat_map (fun a => match objects g a with Some o => owned o ++ [a] | None => [] end) dead.

(** A collection is due at the next allocation. *)
Definition due (g : gcstate) : Prop := gc_inhibited g = O /\ collect_counter g > 2000.
(** All entries of the array are in use. *)
Definition full (g : gcstate) : Prop := exists l, allocs g = Some l /\ (length l <= alloc_ptr g)%nat.

(** calloc gives an address that is not in use, or one that the collection has just freed. *)
Definition fresh (g : gcstate) (words statics : list Z) (a : Z) : Prop :=
  0 < a /\ (is_obj (objects g) a -> due g /\ ~ live (objects g) words statics a).
(** The array is not full when a collection is due; and when the array is extended the memory from realloc is zero. *)
Definition roomy (g : gcstate) (garbage : nat -> Z) : Prop := ~ (due g /\ full g) /\ (full g -> forall n, garbage n = 0).
(** No condition. *)
Definition anyhow (g : gcstate) (garbage : nat -> Z) : Prop := True.

(** What a program does with the collector: it allocates an object, inhibits and enables the collector, and changes the contents of objects. *)
Inductive op := Alloc | Inhibit | Enable | Change.

(** The states after a sequence of operations (the latest one first), when the allocations satisfy [good]. *)
Inductive runs_to (good : gcstate -> (nat -> Z) -> Prop) : list op -> gcstate -> Prop :=
| run_start : runs_to good [] gc_start
| run_alloc ops g g' fuel words statics garbage a :
    runs_to good ops g -> fresh g words statics a -> good g garbage ->
    alloc_tree fuel words statics garbage a g = GOk g' -> runs_to good (Alloc :: ops) g'
| run_change ops g h : runs_to good ops g -> (forall a, is_obj h a <-> is_obj (objects g) a) -> (forall a, ~ marked h a) ->
    runs_to good (Change :: ops) (mkgc (gc_inhibited g) (alloc_ptr g) (allocs g) (collect_counter g) h (frees g))
| run_inhibit ops g : runs_to good ops g -> runs_to good (Inhibit :: ops) (inhibit_gc g)
| run_enable ops g : runs_to good ops g -> runs_to good (Enable :: ops) (enable_gc g).

(** The number of inhibitions that have not been undone. *)
Fixpoint depth (ops : list op) : nat :=
  match ops with
  | [] => 0
  | Inhibit :: ops => S (depth ops)
  | Enable :: ops => pred (depth ops)
  | _ :: ops => depth ops
  end.
(** The number of allocations while nothing inhibits the collector. *)
Fixpoint enabled_allocs (ops : list op) : nat :=
  match ops with
  | [] => 0
  | Alloc :: ops => match depth ops with O => S (enabled_allocs ops) | S _ => enabled_allocs ops end
  | _ :: ops => enabled_allocs ops
  end.

(** [x] is on a cycle. *)
Definition cyclic (h : heap) (x : Z) : Prop := clos_trans_1n Z (link h) x x.
