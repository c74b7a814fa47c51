(** Property theorems about type names: C36. *)
From Coq Require Import ZArith List String Bool.
From Verif Require Import CInt Tree Typename SpecTypename TypenameFacts.
Import ListNotations.
Local Open Scope string_scope.
Local Open Scope list_scope.

(** C36.  After any events, exactly the names introduced by typedefs (see SpecTypename.v) are type
    names. *)
Theorem C36_type_names : forall l x, Forall parsed l ->
  is_typename x (after_events l) = true <-> type_name l x.
Proof. exact is_typename_iff. Qed.
Print Assumptions C36_type_names.

(** A name once introduced outside headers stays a type name, whatever is declared later: typedefs
    have no scope. *)
Theorem C36_for_ever : forall l l' e x, Forall parsed (l ++ e :: l') -> typedefs e x -> ~ in_headers l ->
  is_typename x (after_events (l ++ e :: l')) = true.
Proof.
  intros l l' e x Hp He Hh. apply is_typename_iff; [exact Hp|]. right. right. exists l, e, l'. tauto.
Qed.
Print Assumptions C36_for_ever.

(** [typedef int a, *b;] in the program, [typedef int ( *c)[3], d();] in a header, [int e;]; then the headers are
    read again, with [typedef int f;]. *)
Definition td (ds : list tree) : event := Declaration 0 (CHAIN_HEAD [T_SPEC T_TYPEDEF; T_SPEC T_INT_TS]) (CHAIN_HEAD ds).
Definition history : list event :=
  [td [T_IDENTIFIER "a"; T_POINTER (T_IDENTIFIER "b")];
   Reset; HeadersBegin; td [T_ARRAY (T_POINTER (T_IDENTIFIER "c")) (T_INTEGER 3); T_FN (T_IDENTIFIER "d") NULL NULL NULL]; HeadersEnd;
   Declaration 0 (CHAIN_HEAD [T_SPEC T_INT_TS]) (CHAIN_HEAD [T_IDENTIFIER "e"])].
Definition again : list event := history ++ [Reset; HeadersBegin; td [T_IDENTIFIER "f"]; HeadersEnd].
Example C36_nontrivial : Forall parsed again /\
  map (fun x => is_typename x (after_events history)) ["a"; "b"; "c"; "d"; "e"; "f"; "_Float128"] =
    [true; true; true; true; false; false; true] /\
  map (fun x => is_typename x (after_events again)) ["a"; "b"; "c"; "d"; "e"; "f"; "_Float128"] =
    [true; true; false; false; false; true; true].
Proof.
  split; [|split; reflexivity].
  repeat apply Forall_cons; try apply Forall_nil; try exact I; do 2 eexists;
    (split; [reflexivity|split; [reflexivity|repeat constructor]]).
Qed.
