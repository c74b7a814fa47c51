(** Structures and unions; used by C21, C23 - C25. *)
From Coq Require Import ZArith List String Bool.
From Verif Require Import CInt Tree State Eval StepsFacts SpecRun SpecTypes SpecExpr SpecNames SpecVars SpecCalls SpecPtr SpecEnum.
Import ListNotations.
Local Open Scope Z_scope.
Local Open Scope list_scope.

(** The declarators of members: [n] stars and a name; an array of length [e]; a bit-field; a
    bit-field without name. *)
Inductive declarator : Type :=
| DVar (n : nat) (x : string)
| DArray (n : nat) (x : string) (e : expr)
| DBits (x : string) (w : tree)
| DUnnamed (w : tree).
(** Their syntax trees. *)
Definition declarator_tree (d : declarator) : tree :=
  match d with
  | DVar n x => stars n (T_IDENTIFIER x)
  | DArray n x e => stars n (T_ARRAY (T_IDENTIFIER x) (syntax e))
  | DBits x w => T_BITFIELD w (T_IDENTIFIER x)
  | DUnnamed w => T_BITFIELD w NULL
  end.

(** A member declaration: label, specifiers, declarators. *)
Definition group : Type := (Z * list tree * list declarator)%type.
Definition group_tree (g : group) : tree :=
  let '(l, specs, ds) := g in
  T_DECL l (CHAIN_HEAD specs) (match ds with [] => NULL | _ => CHAIN_HEAD (map declarator_tree ds) end).
(** The members with a name, each with its specifiers. *)
Definition named (d : declarator) : bool := match d with DUnnamed _ => false | _ => true end.
Definition members (gs : list group) : list (list tree * declarator) :=
  flat_map (fun g => map (pair (snd (fst g))) (filter named (snd g))) gs.

(** The declaration [struct tag { gs }] or [union tag { gs }]; [l] is the label of the node. *)
Definition tag_tree (tag : option string) : tree := match tag with Some x => T_IDENTIFIER x | None => NULL end.
Definition compound_tree (l : Z) (k : compound_type) (tag : option string) (gs : list group) : tree :=
  T_DECL_COMPOUND l k (tag_tree tag) (CHAIN_HEAD (map group_tree gs)).

(** The structure or union tags of a scope. *)
Definition tags (k : compound_type) (c : ctx) : list (string * tree) :=
  match k with sstruct => c_structs c | uunion => c_unions c end.
(** The tag [x] means [t]: in the innermost scope that has it. *)
Definition tag_means (s : state) (k : compound_type) (x : string) (t : tree) : Prop :=
  exists inner c outer, visible s = inner ++ c :: outer /\
    (forall d v, In d inner -> entry (tags k d) x v -> v = NULL) /\ t <> NULL /\ entry (tags k c) x t.

(** The scope [c] with the tag added. *)
Definition with_tag (k : compound_type) (tag : option string) (t : tree) (c : ctx) : ctx :=
  match tag with
  | None => c
  | Some x =>
      match k with
      | sstruct => mkctx (c_id c) (c_name c) (c_idmap c) (c_structs c ++ [(x, t)]) (c_unions c) (c_allocs c)
                     (c_retval c) (c_break c) (c_isfn c)
      | uunion => mkctx (c_id c) (c_name c) (c_idmap c) (c_structs c) (c_unions c ++ [(x, t)]) (c_allocs c)
                    (c_retval c) (c_break c) (c_isfn c)
      end
  end.
(** The state [s] with the tag declared in its current scope. *)
Definition tagged (k : compound_type) (tag : option string) (t : tree) (s : state) : state :=
  set_stack (fun cs => match cs with c :: cs => with_tag k tag t c :: cs | [] => [] end) s.
(** The tag is not yet in the scope. *)
Definition tag_free (k : compound_type) (tag : option string) (c : ctx) : Prop :=
  match tag with Some x => ~ In x (map fst (tags k c)) | None => True end.

(** The specifiers [specs] stand for [t]: as in SpecEnum.v, or a structure or union named by its
    tag.  [l] is the label of the declaration under way. *)
Inductive spec_type (s : state) (l : option Z) : list tree -> tree -> Prop :=
| spec_base specs t : base_type s specs t -> spec_type s l specs t
| spec_tag w l' k x post t : sane_prefix w -> zfind l' (comps s) = None -> l <> Some l' -> tag_means s k x t ->
    spec_type s l (map T_SPEC w ++ T_DECL_COMPOUND l' k (T_IDENTIFIER x) NULL :: post) t.
(** None of the specifiers is a storage class. *)
Definition no_class (specs : list tree) : Prop :=
  forall x, In x [T_TYPEDEF; T_EXTERN; T_STATIC] -> ~ In (T_SPEC x) specs.

(** A member: its name, its type or the type of its elements, its length if it is an array. *)
Definition field : Type := (string * tree * option Z)%type.
Definition f_name (f : field) : string := fst (fst f).
Definition f_type (f : field) : tree := snd (fst f).
Definition f_align (f : field) : Z := scalar_width (f_type f).
Definition f_size (f : field) : Z := match snd f with None => f_align f | Some z => f_align f * z end.

(** The member declaration declares this member; array lengths are evaluated with the variables
    [rho].  Bit-fields are ordinary members. *)
Inductive describes (E : env) (s : state) (rho : string -> Z) (l : option Z) : list tree * declarator -> field -> Prop :=
| de_var specs n x t : spec_type s l specs t -> no_class specs -> object_type (pointer_to n t) ->
    describes E s rho l (specs, DVar n x) (x, pointer_to n t, None)
| de_array specs n x e t z : spec_type s l specs t -> no_class specs -> object_type (pointer_to n t) ->
    reads E s rho e -> denote rho e = Some z -> 0 <= z ->
    describes E s rho l (specs, DArray n x e) (x, pointer_to n t, Some z)
| de_bits specs x w t : spec_type s l specs t -> no_class specs -> object_type t ->
    describes E s rho l (specs, DBits x w) (x, t, None).

(** [p] is the first address from [o] on that is a multiple of [a]. *)
Definition first_multiple (a o p : Z) : Prop :=
  o <= p /\ (exists k, p = k * a) /\ forall q, o <= q -> (exists k, q = k * a) -> p <= q.
(** The members [fs] placed one after the other from [o] on, each at the first suitable place:
    their offsets and the end of the last one. *)
Inductive placed : Z -> list field -> list Z -> Z -> Prop :=
| placed_nil o : placed o [] [] o
| placed_cons o f fs p ps e : first_multiple (f_align f) o p -> placed (p + f_size f) fs ps e ->
    placed o (f :: fs) (p :: ps) e.

(** The size of the largest member. *)
Definition largest (fs : list field) : Z := fold_right Z.max 0 (map f_size fs).

(** The type [t] is a complete structure or union of [size] bytes whose members are declared by
    [ms] and have the offsets [ps]. *)
Definition complete (s : state) (t : tree) (k : compound_type) (ms : list (list tree * declarator)) (ps : list Z) (size : Z) : Prop :=
  exists c, view_comp s t = Some c /\ cd_type c = k /\ cd_exp c = true /\ cd_sz c = size /\
    map m_specs (cd_mem c) = map (fun m => CHAIN_HEAD (fst m)) ms /\
    map m_decl (cd_mem c) = map (fun m => declarator_tree (snd m)) ms /\ map m_off (cd_mem c) = ps.

(** Nodes made by the evaluator do not have labels of static declarations. *)
Definition own_labels (s : state) : Prop := forall i, fresh s <= i -> zfind i (statics s) = None.

(** From [s] to [s'] the type with label [l] may have changed; what was in use has been kept,
    nothing else happened. *)
Definition only_type (E : env) (s : state) (l : Z) (s' : state) : Prop :=
  stack s' = stack s /\ incl s' = incl s /\ includes s' = includes s /\ ov_ret s' = ov_ret s /\ ov_asn s' = ov_asn s /\
  statics s' = statics s /\ trace s' = trace s /\ breaks s' = breaks s /\ fresh s <= fresh s' /\
  (forall l', l' <> l -> zfind l' (comps s') = zfind l' (comps s)) /\
  kept E s s' /\ (forall b, used_block E s b -> used_block E s' b).

(** The member [f] at offset [p] of the object at [base] is the entry [m] in its table of members.
    An array is a new pointer variable that holds the address of the first element. *)
Definition member_entry (E : env) (s : state) (base : Z) (f : field) (p : Z) (m : string * tree) (s' : state) : Prop :=
  fst m = f_name f /\
  match snd f with
  | None => snd m = T_LIVE_VAR (f_type f) (base + p) false 0
  | Some z => exists q, snd m = T_LIVE_VAR (D_T_PTR (f_type f)) q true (f_size f) /\ new_object E s q 16 s' /\
                unsigned_at (mem s') q 8 = base + p
  end.
(** The table [ms] lists the members [fs] at the offsets [ps]. *)
Inductive member_table (E : env) (s : state) (base : Z) (s' : state) : list field -> list Z -> list (string * tree) -> Prop :=
| table_nil : member_table E s base s' [] [] []
| table_cons f p m fs ps ms : member_entry E s base f p m s' -> member_table E s base s' fs ps ms ->
    member_table E s base s' (f :: fs) (p :: ps) (m :: ms).

(** Every member lies inside the [size] bytes of the object. *)
Definition inside (size : Z) (fs : list field) (ps : list Z) : Prop :=
  Forall2 (fun f p => 0 <= p /\ p + f_size f <= size) fs ps.
(** No two members share a byte. *)
Definition apart (fs : list field) (ps : list Z) : Prop :=
  ForallOrdPairs (fun m m' => snd m + f_size (fst m) <= snd m' \/ snd m' + f_size (fst m') <= snd m) (combine fs ps).

(** The value [v] is a new object of [size] bytes of the structure or union type [t]; first its
    storage was allocated, then the table of its members was made. *)
Definition object_made (E : env) (s : state) (t : tree) (fs : list field) (ps : list Z) (size : Z) (v : tree) (s' : state) : Prop :=
  exists tbl base s1, v = T_LIVE_COMPOUND t tbl base /\ only_new E s [] s1 /\ new_object E s base size s1 /\
    kept E s1 s' /\ member_table E s1 base s' fs ps tbl.
