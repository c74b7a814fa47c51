(** Specification of chains as sequences, used in the statements about [ListC]. *)
From Coq Require Import ZArith List Bool.
From Verif Require Import ListC.
Import ListNotations.
Local Open Scope Z_scope.

(** [seg h a l b]: starting from cell [a], following [next] visits exactly the cells [l]
    and then [b], and the [prev] fields are the inverse links. *)
Fixpoint seg (h : heap) (a : Z) (l : list Z) (b : Z) : Prop :=
  match l with
  | [] => nxt h a = b /\ prv h b = a
  | x :: l' => nxt h a = x /\ prv h x = a /\ seg h x l' b
  end.

(** The circular chain with the given head represents the sequence [l]. *)
Definition chain (h : heap) (head : Z) (l : list Z) : Prop :=
  NoDup (head :: l) /\ seg h head l head.

(** Abstract states: which sequence each chain head represents. *)
Definition astate := list (Z * list Z).

(** All cells in use: heads and elements. *)
Definition cells (a : astate) : list Z := flat_map (fun c => fst c :: snd c) a.

(** The heap represents the abstract state. *)
Definition represents (h : heap) (a : astate) : Prop :=
  NoDup (cells a) /\ (forall hd l, In (hd, l) a -> chain h hd l).

(** Operations a client can perform. *)
Inductive op :=
| OpInit (p : Z)             (* make a new empty chain *)
| OpAdd (new head : Z)       (* add at the head *)
| OpAddTail (new head : Z)   (* add at the tail *)
| OpDel (e : Z)              (* unlink an element *)
| OpSplice (dest src : Z).   (* move all of src to the end of dest *)

(** Effect of the operations on sequences. *)
Definition upd (a : astate) (head : Z) (f : list Z -> list Z) : astate :=
  map (fun c => if fst c =? head then (fst c, f (snd c)) else c) a.

Definition lookup (a : astate) (head : Z) : list Z :=
  match find (fun c => fst c =? head) a with Some (_, l) => l | None => [] end.

Definition astep (a : astate) (o : op) : astate :=
  match o with
  | OpInit p => (p, []) :: a
  | OpAdd n hd => upd a hd (fun l => n :: l)
  | OpAddTail n hd => upd a hd (fun l => l ++ [n])
  | OpDel e => map (fun c => (fst c, remove Z.eq_dec e (snd c))) a
  | OpSplice d s => upd (upd a d (fun l => l ++ lookup a s)) s (fun _ => [])
  end.

(** When a client may perform an operation. *)
Definition legal (a : astate) (o : op) : Prop :=
  match o with
  | OpInit p => ~ In p (cells a)
  | OpAdd n hd | OpAddTail n hd => ~ In n (cells a) /\ In hd (map fst a)
  | OpDel e => exists hd l, In (hd, l) a /\ In e l
  | OpSplice d s => d <> s /\ In d (map fst a) /\ In s (map fst a)
  end.

(** The concrete operations. *)
Definition cstep (fuel : nat) (h : heap) (o : op) : option heap :=
  match o with
  | OpInit p => Some (INIT_LIST h p)
  | OpAdd n hd => Some (list_add h n hd)
  | OpAddTail n hd => Some (tree_chain h n hd)
  | OpDel e => Some (tree_unchain h e)
  | OpSplice d s => tree_splice_chains fuel h d s
  end.

Fixpoint arun (a : astate) (os : list op) : astate :=
  match os with [] => a | o :: os => arun (astep a o) os end.

Fixpoint all_legal (a : astate) (os : list op) : Prop :=
  match os with [] => True | o :: os => legal a o /\ all_legal (astep a o) os end.

Fixpoint crun (fuel : nat) (h : heap) (os : list op) : option heap :=
  match os with
  | [] => Some h
  | o :: os => match cstep fuel h o with Some h' => crun fuel h' os | None => None end
  end.
