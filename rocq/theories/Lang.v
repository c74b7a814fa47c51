(** Model of the part of src/lang.cpp that reads a language description and gives the properties of the node types their
    fields of [struct tree_data]. *)
From Coq Require Import String List Bool Arith DecimalString DecimalNat.
Import ListNotations.
Local Open Scope string_scope.

(** [std::to_string] of a size, src/lang.cpp:35. *)
Definition to_string (n : nat) : string := NilEmpty.string_of_uint (Nat.to_uint n).

(** [struct BaseType], src/lang.h:8-12; [isTree] is not used in the modelled functions. *)
Record basetype := mkbase { type : string; name : string }.
(** [struct InstantiatedType], src/lang.h:15-19. *)
Record inst := mkinst { memberName : string; baseType : basetype }.

(** [struct TypePool], src/lang.h:43-53. *)
Record pool := mkpool { baseType_ : basetype; pool_ : list inst }.

(** [TypePool::alloc], src/lang.cpp:30-40. *)
Definition pool_alloc (p : pool) : inst * pool :=
  let ret := mkinst (name (baseType_ p) ++ to_string (length (pool_ p))) (baseType_ p) in
  (ret, mkpool (baseType_ p) (pool_ p ++ [ret])).

(** A [TypeAllocator] (src/lang.h:55-61) is its [currentPool_]; the pool it refers to is passed to [alloc].
    The constructor (src/lang.cpp:47-50) copies the pool. *)
Definition getAllocator (p : pool) : list inst := pool_ p.

(** [TypeAllocator::alloc], src/lang.cpp:52-61. *)
Definition allocator_alloc (cur : list inst) (p : pool) : inst * list inst * pool :=
  match cur with
  | [] => let '(r, p) := pool_alloc p in (r, [], p)
  | element :: cur => (element, cur, p)
  end.

(** [insert] of std::unordered_map: nothing happens when the key is there already.
    /repo/src/lang.cpp:94, 129, 151, 155. *)
Definition map_insert {A} (k : string) (v : A) (m : list (string * A)) : list (string * A) :=
  if existsb (fun e => fst e =? k) m then m else m ++ [(k, v)].
(** [at] of std::unordered_map; None: the exception std::out_of_range. /repo/src/lang.cpp:150. *)
Definition map_at {A} (k : string) (m : list (string * A)) : option A :=
  match find (fun e => fst e =? k) m with Some (_, v) => Some v | None => None end.
(** Change of the value of a key, through a reference into the map. /repo/src/lang.cpp:150-151. *)
Definition map_set {A} (k : string) (v : A) (m : list (string * A)) : list (string * A) :=
  map (fun e => if fst e =? k then (k, v) else e) m.

(** The parts of [struct lang] (src/lang.h:68-78) that matter: the pools and the properties of the node types; [struct TreeType]
    (src/lang.h:23-32) is its name and [props].  The vector [treeCTypes] is kept in the same list as [treeTypes]. *)
Record lang := mklang { baseTypePools : list (string * pool); treePool : pool; treeTypes : list (string * list (string * inst)) }.
(** The constructor, src/lang.h:77. *)
Definition lang0 : lang := mklang [] (mkpool (mkbase "tree" "t") []) [].

(** Tokens, src/lang.h:80-90 and src/lang_lexer.lpp:31-44; the characters are not modelled. *)
Inductive token := LP | RP | DEFTYPE | DEFCTYPE | DEFBASETYPES | DEFSPECIFIER | IDENTIFIER (s : string) | STRING (s : string) | IGNORE | SELF.

(** The loop of [parsePropList], src/lang.cpp:137-160, with [getDataBaseType], src/lang.cpp:98-117.  [propNamePrefix] is always
    empty.  None: error exit. *)
Fixpoint prop_loop (toks : list token) (pools : list (string * pool)) (tp : pool) (allocs : list (string * list inst)) (tree : list inst)
    (props : list (string * inst)) : option (list token * list (string * pool) * pool * list (string * inst)) :=
  match toks with
  | RP :: toks => Some (toks, pools, tp, props)
  | LP :: STRING n :: IDENTIFIER b :: RP :: toks =>
      match map_at b allocs, map_at b pools with
      | Some cur, Some p =>
          let '(r, cur, p) := allocator_alloc cur p in
          prop_loop toks (map_set b p pools) tp (map_set b cur allocs) tree (map_insert n r props)
      | _, _ => None
      end
  | STRING n :: toks =>
      let '(r, tree, tp) := allocator_alloc tree tp in
      prop_loop toks pools tp allocs tree (map_insert n r props)
  | _ => None
  end.

(** [parsePropList], src/lang.cpp:119-161, from its first token. *)
Definition parsePropList (toks : list token) (l : lang) : option (list token * lang * list (string * inst)) :=
  match toks with
  | STRING prefix :: LP :: toks =>
      match prop_loop toks (baseTypePools l) (treePool l) (map (fun e => (fst e, getAllocator (snd e))) (baseTypePools l)) (getAllocator (treePool l)) [] with
      | Some (toks, pools, tp, props) => Some (toks, mklang pools tp (treeTypes l), props)
      | None => None
      end
  | _ => None
  end.

(** The common end of [handle_deftype] (src/lang.cpp:177-187) and [handle_defctype] (src/lang.cpp:224-234). *)
Definition type_end (n : string) (toks : list token) (l : lang) : option (list token * lang) :=
  match toks with
  | RP :: toks => Some (toks, mklang (baseTypePools l) (treePool l) (treeTypes l ++ [(n, [])]))
  | _ => match parsePropList toks l with
         | Some (RP :: toks, l, props) => Some (toks, mklang (baseTypePools l) (treePool l) (treeTypes l ++ [(n, props)]))
         | _ => None
         end
  end.
(** [handle_deftype], src/lang.cpp:163-188. *)
Definition handle_deftype (toks : list token) (l : lang) : option (list token * lang) :=
  match toks with IDENTIFIER n :: STRING _ :: toks => type_end n toks l | _ => None end.
(** [handle_defctype], src/lang.cpp:190-235. *)
Definition handle_defctype (toks : list token) (l : lang) : option (list token * lang) :=
  match toks with
  | IDENTIFIER n :: STRING _ :: STRING _ :: STRING _ :: STRING _ :: IDENTIFIER _ :: toks => type_end n toks l
  | _ => None
  end.

(** [handle_defbasetype], src/lang.cpp:63-96. *)
Fixpoint handle_defbasetype (toks : list token) (l : lang) : option (list token * lang) :=
  match toks with
  | RP :: toks => Some (toks, l)
  | LP :: IDENTIFIER n :: STRING t :: RP :: toks =>
      handle_defbasetype toks (mklang (map_insert n (mkpool (mkbase t n) []) (baseTypePools l)) (treePool l) (treeTypes l))
  | _ => None
  end.

(** [handle_specifier_list], src/lang.cpp:236-255; the identifiers are not kept. *)
Fixpoint handle_specifier_list (toks : list token) : option (list token) :=
  match toks with
  | RP :: toks => Some toks
  | IDENTIFIER _ :: toks => handle_specifier_list toks
  | _ => None
  end.
(** The loop of [handle_defspecifier], src/lang.cpp:271-281; the fuel bounds the number of lists. *)
Fixpoint specifier_lists (fuel : nat) (toks : list token) : option (list token) :=
  match fuel with
  | O => None
  | S fuel =>
      match toks with
      | RP :: toks => Some toks
      | LP :: toks => match handle_specifier_list toks with Some toks => specifier_lists fuel toks | None => None end
      | _ => None
      end
  end.
(** [handle_defspecifier], src/lang.cpp:257-307.  It has no effect on the modelled parts of [struct lang]. *)
Definition handle_defspecifier (toks : list token) : option (list token) :=
  match match toks with
        | IDENTIFIER _ :: LP :: toks => specifier_lists (S (length toks)) toks
        | IGNORE :: IDENTIFIER _ :: toks => Some toks
        | SELF :: IDENTIFIER _ :: toks => Some toks
        | _ => None
        end with
  | Some (RP :: toks) => Some toks
  | _ => None
  end.

(** [lang_parse], src/lang.cpp:309-343; the fuel bounds the number of definitions.  [DEFTYPE] is the number 0 (src/lang.h:80-82),
    which yylex also returns at the end of the file, so that a definition starting with this token ends the input. *)
Fixpoint lang_parse (fuel : nat) (toks : list token) (l : lang) : option lang :=
  match fuel with
  | O => None
  | S fuel =>
      match toks with
      | [] => Some l
      | DEFTYPE :: _ => Some l
      | LP :: DEFTYPE :: toks => match handle_deftype toks l with Some (toks, l) => lang_parse fuel toks l | None => None end
      | LP :: DEFCTYPE :: toks => match handle_defctype toks l with Some (toks, l) => lang_parse fuel toks l | None => None end
      | LP :: DEFBASETYPES :: toks => match handle_defbasetype toks l with Some (toks, l) => lang_parse fuel toks l | None => None end
      | LP :: DEFSPECIFIER :: toks => match handle_defspecifier toks with Some toks => lang_parse fuel toks l | None => None end
      | _ => None
      end
  end.
(** [lang_read], src/lang.cpp:345-350, on an empty [struct lang] as in src/gen*.cpp; every definition has at least one token. *)
Definition lang_read (toks : list token) : option lang := lang_parse (S (length toks)) toks lang0.

(** The fields of [struct tree_data]: [outputTreeDataUnion], src/gentree.cpp:3-14, and [emitDeclarations], src/lang.cpp:23-28.
    (The order of the pools in an unordered_map is not specified.) *)
Definition declarations (l : lang) : list (string * string) :=
  map (fun i => (type (baseType i), memberName i)) (flat_map (fun e => pool_ (snd e)) (baseTypePools l) ++ pool_ (treePool l)).
