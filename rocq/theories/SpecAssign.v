(** Assigning to pointers; used by C72. *)
From Coq Require Import ZArith List String Ascii Bool.
From Verif Require Import CInt Tree State SpecRun SpecVars SpecPtr SpecPrint.
Import ListNotations.
Local Open Scope Z_scope.
Local Open Scope list_scope.

(** From [s] to [s'] the pointer at [a] was made to point to a copy of the text [x]: the copy is the new object at [q], ends with a NUL, and
    belongs to the current scope; everything else that was in use has its old contents, and no name has another meaning. *)
Definition text_assigned (E : env) (s : state) (a : Z) (x : string) (q : Z) (s' : state) : Prop :=
  (exists c cs, stack s = c :: cs /\ stack s' = scope_plus c [] [q] :: cs) /\
  new_object E s q (Z.of_nat (String.length x) + 1) s' /\
  unsigned_at (mem s') a 8 = q /\ text_at E s' q (letters_of x) /\
  (forall b, storage E s b 1 -> b < a \/ a + 8 <= b -> mem s' b = mem s b) /\
  same_rest s s'.
