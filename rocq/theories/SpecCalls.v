(** Calls of interpreted functions: parameters and arguments; used by C17 - C19. *)
From Coq Require Import ZArith List String Bool.
From Verif Require Import CInt Tree State SpecRun SpecTypes SpecExpr SpecVars.
Import ListNotations.
Local Open Scope Z_scope.

(** A parameter [T x] of integer type [T]; the label is the identity of its declaration. *)
Record param : Type := mkparam { p_label : Z; p_specs : list spec; p_type : ctype; p_name : string }.

(** Its declaration as the parser makes it. *)
Definition param_decl (p : param) : tree :=
  T_DECL (p_label p) (CHAIN_HEAD (map T_SPEC (p_specs p))) (T_IDENTIFIER (p_name p)).

(** The specifiers name an integer type, there is no storage class. *)
Definition param_ok (p : param) : Prop :=
  names_type (p_specs p) (D_T (p_type p)) /\ integer_type (p_type p) = true /\ no_storage_class (p_specs p).

(** The value [w] of a parameter of type [c] initialised with the number [v]: what is left of [v]
    when it is stored, modulo the width of the type. *)
Definition received (c : ctype) (v w : Z) : Prop := exists u, clipped v u /\ wraps c u w.

(** The variable environment in which [x] has the value [z]. *)
Definition with_var (rho : string -> Z) (x : string) (z : Z) : string -> Z :=
  fun y => if String.eqb y x then z else rho y.

(** With the variables [rho], the arguments [es] give the parameters [ps] the values [ws].  An
    argument is evaluated when the earlier parameters exist, so it sees their values. *)
Fixpoint passes (rho : string -> Z) (ps : list param) (es : list expr) (ws : list Z) : Prop :=
  match ps, es, ws with
  | [], [], [] => True
  | p :: ps, e :: es, w :: ws =>
      (exists v, denote rho e = Some v /\ received (p_type p) v w) /\
      passes (with_var rho (p_name p) (as_long w)) ps es ws
  | _, _, _ => False
  end.

(** The variables when the body starts. *)
Fixpoint body_vars (rho : string -> Z) (ps : list param) (ws : list Z) : string -> Z :=
  match ps, ws with
  | p :: ps, w :: ws => body_vars (with_var rho (p_name p) (as_long w)) ps ws
  | _, _ => rho
  end.

(** Some argument divides by zero, or the like. *)
Fixpoint no_value (rho : string -> Z) (ps : list param) (es : list expr) : Prop :=
  match ps, es with
  | p :: ps, e :: es => denote rho e = None \/
      exists v w, denote rho e = Some v /\ received (p_type p) v w /\
        no_value (with_var rho (p_name p) (as_long w)) ps es
  | _, _ => False
  end.

(** Every variable mentioned by an argument is an earlier parameter (one of [before]) or satisfies
    [P]. *)
Fixpoint reads (P : string -> Prop) (before : list string) (ps : list param) (es : list expr) : Prop :=
  match ps, es with
  | p :: ps, e :: es => (forall y, mentions e y -> In y before \/ P y) /\ reads P (p_name p :: before) ps es
  | _, _ => True
  end.

(** No argument mentions the name of an earlier parameter; [before] are the earlier names. *)
Fixpoint no_capture (before : list string) (ps : list param) (es : list expr) : Prop :=
  match ps, es with
  | p :: ps, e :: es => (forall y, mentions e y -> ~ In y before) /\ no_capture (p_name p :: before) ps es
  | _, _ => True
  end.

(** Nodes made from now on are new: no assignment with such an identity has been changed. *)
Definition new_nodes_plain (s : state) : Prop := forall l, fresh s <= l -> zfind l (ov_asn s) = None.

(** The parts of the state other than memory, blocks, scopes and the supply of identities. *)
Definition quiet (s s' : state) : Prop :=
  incl s' = incl s /\ includes s' = includes s /\ ov_ret s' = ov_ret s /\ ov_asn s' = ov_asn s /\
  statics s' = statics s /\ comps s' = comps s /\ trace s' = trace s /\ breaks s' = breaks s.

(** The entry of the parameter [fst b], stored at [snd b], in the table of names. *)
Definition param_entry (b : param * Z) : string * tree :=
  (p_name (fst b), T_LIVE_VAR (D_T (p_type (fst b))) (snd b) false 0).

(** The scope [c] with the parameters [bs] added. *)
Definition scope_params (c : ctx) (bs : list (param * Z)) : ctx :=
  mkctx (c_id c) (c_name c) (c_idmap c ++ map param_entry bs) (c_structs c) (c_unions c)
    (c_allocs c ++ map snd bs) (c_retval c) (c_break c) (c_isfn c).

(** The scope of a new activation of the function [name], with identity [i]. *)
Definition new_scope (i : Z) (name : string) : ctx := mkctx i name [] [] [] [] NULL false true.

(** The objects of 16 bytes at [l] do not overlap. *)
Definition apart (a b : Z) : Prop := a + 16 <= b \/ b + 16 <= a.

(** From [s] to [s'] the parameters were bound: every one is a new variable, of its declared
    type, that does not overlap anything in use nor the other parameters, and holds the value
    given in [ws]; nothing in use was changed. *)
Definition binds (E : env) (s : state) (bs : list (param * Z)) (ws : list Z) (s' : state) : Prop :=
  Forall2 (fun b w => value_at s' (p_type (fst b)) (snd b) = w) bs ws /\
  Forall (fun b => new_object E s (snd b) 16 s') bs /\
  ForallOrdPairs (fun b b' => apart (snd b) (snd b')) bs /\
  (forall a n, 0 < n -> storage E s a n -> storage E s' a n) /\
  (forall x, (forall b, In b bs -> x < snd b \/ snd b + 16 <= x) -> mem s' x = mem s x) /\
  quiet s s'.
