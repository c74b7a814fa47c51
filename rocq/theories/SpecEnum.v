(** Enumerations and typedefs; used by C26 and C27. *)
From Coq Require Import ZArith List String Bool.
From Verif Require Import CInt Tree State Eval StepsFacts SpecRun SpecTypes SpecExpr SpecNames SpecVars SpecCalls SpecPtr.
Import ListNotations.
Local Open Scope Z_scope.
Local Open Scope list_scope.

(** An enumerator: its name and, if it has one, its explicit value (with the label of the
    assignment node). *)
Definition enumerator : Type := (string * option (Z * expr))%type.
(** The syntax tree of an enumerator. *)
Definition enumerator_tree (i : enumerator) : tree :=
  match snd i with
  | None => T_IDENTIFIER (fst i)
  | Some (l, e) => T_ASSIGN l (T_IDENTIFIER (fst i)) (syntax e)
  end.

(** [enumerated rho n is r]: the enumerators [is] have the values [r] when the other names have
    the values [rho] and the next enumerator without value gets [n]. *)
Inductive enumerated : (string -> Z) -> Z -> list enumerator -> list (string * Z) -> Prop :=
| en_nil rho n : enumerated rho n [] []
| en_next rho n x is r : enumerated (with_var rho x n) ((n + 1) mod 2 ^ 32) is r ->
    enumerated rho n ((x, None) :: is) ((x, n) :: r)
| en_value rho n x l e v is r : denote rho e = Some v ->
    enumerated (with_var rho x (Z.abs v mod 2 ^ 32)) ((Z.abs v mod 2 ^ 32 + 1) mod 2 ^ 32) is r ->
    enumerated rho n ((x, Some (l, e)) :: is) ((x, Z.abs v mod 2 ^ 32) :: r).

(** Every name used in the values [is] is one of [before], an earlier enumerator, or has the value
    that [rho] gives it. *)
Fixpoint names_known (E : env) (s : state) (rho : string -> Z) (before : list string) (is : list enumerator) : Prop :=
  match is with
  | [] => True
  | (x, o) :: is =>
      match o with
      | Some (l, e) => plain s l (T_IDENTIFIER x) /\
          forall y, mentions e y -> In y before \/ number E s (lookup s y) (rho y)
      | None => True
      end /\ names_known E s rho (x :: before) is
  end.

(** The name of the enumeration, if it has one, becomes a name for unsigned int. *)
Definition enum_tag (tag : option string) : list (string * tree) :=
  match tag with Some x => [(x, D_T D_T_UINT)] | None => [] end.
Definition enum_tag_tree (tag : option string) : tree :=
  match tag with Some x => T_IDENTIFIER x | None => NULL end.
(** The names an enumeration declares. *)
Definition enum_names (tag : option string) (r : list (string * Z)) : list (string * tree) :=
  enum_tag tag ++ map (fun p => (fst p, T_INTEGER (snd p))) r.

(** The declaration specifiers [specs] stand for the type [t]: they are type words, or a name
    that means [t], possibly with words before it. *)
Inductive base_type (s : state) : list tree -> tree -> Prop :=
| base_words l t : names_type l t -> base_type s (map T_SPEC l) t
| base_name l x post t : sane_prefix l -> means s x t -> base_type s (map T_SPEC l ++ T_IDENTIFIER x :: post) t.

(** The same of typedef, extern and static occur in both. *)
Definition same_classes (a b : list tree) : Prop :=
  forall x, In x [T_TYPEDEF; T_EXTERN; T_STATIC] -> In (T_SPEC x) a <-> In (T_SPEC x) b.

(** The types that a typedef gives to the declarators [ds], written as number of stars and name. *)
Definition typedef_names (t : tree) (ds : list (nat * string)) : list (string * tree) :=
  map (fun d => (snd d, pointer_to (fst d) t)) ds.
