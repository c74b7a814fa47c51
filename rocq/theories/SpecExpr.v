(** Integer expressions and what they denote; used by C01 and C05. *)
From Coq Require Import ZArith List String Bool.
From Verif Require Import CInt Tree State SpecRun.
Import ListNotations.
Local Open Scope Z_scope.
Local Open Scope list_scope.

Inductive expr : Type :=
| Lit (z : Z)
| Var (x : string)
| Bin (op : binop) (a b : expr)
| Cmp (op : cmpop) (a b : expr)
| Not (a : expr)
| Compl (a : expr)
| And (a b : expr)
| Or (a b : expr)
| Cond (c a b : expr)
| Comma (a b : expr)
| Group (a : expr).       (* in parentheses *)

(** The syntax tree for it.  The parser (/repo/src/parser.m4:609) makes an expression list of everything in parentheses and of
    whole expressions, with an element for each part between commas; it makes no T_COMMA node, but the evaluator has it. *)
Fixpoint syntax (e : expr) : tree :=
  match e with
  | Lit z => T_INTEGER z
  | Var x => T_IDENTIFIER x
  | Bin op a b => T_BINOP op (syntax a) (syntax b)
  | Cmp op a b => T_CMP op (syntax a) (syntax b)
  | Not a => T_NEGATE (syntax a)
  | Compl a => T_ONES_COMP (syntax a)
  | And a b => T_L_AND (syntax a) (syntax b)
  | Or a b => T_L_OR (syntax a) (syntax b)
  | Cond c a b => T_INFIX (syntax c) (syntax a) (syntax b)
  | Comma a b => T_COMMA (syntax a) (syntax b)
  | Group a =>
      T_EXPR_LIST (CHAIN_HEAD ((fix parts (e : expr) : list tree :=
        match e with Comma a b => parts a ++ [syntax b] | _ => [syntax e] end) a))
  end.
(** The parts between commas. *)
Fixpoint parts (e : expr) : list tree := match e with Comma a b => parts a ++ [syntax b] | _ => [syntax e] end.

(** The binary operators on unbounded integers; shift counts are magnitudes modulo 2^64.
    None: division by zero. *)
Definition zop (op : binop) (x y : Z) : option Z :=
  let n := Z.abs y mod 2 ^ 64 in
  match op with
  | ADD => Some (x + y)
  | SUB => Some (x - y)
  | MUL => Some (x * y)
  | DIV => if y =? 0 then None else Some (x / y)          (* rounds down *)
  | MOD => if y =? 0 then None else Some (Z.rem x y)      (* sign of x *)
  | LSHIFT => Some (x * 2 ^ n)
  | RSHIFT => Some (Z.quot x (2 ^ n))                     (* rounds towards zero *)
  | I_AND => Some (Z.land x y)
  | I_OR => Some (Z.lor x y)
  | X_OR => Some (Z.lxor x y)
  end.

Definition zcmp (op : cmpop) (x y : Z) : bool :=
  match op with
  | LT => x <? y | GT => x >? y | LTEQ => x <=? y | GTEQ => x >=? y
  | EQ => x =? y | N_EQ => negb (x =? y)
  end.

Definition b2z (b : bool) : Z := if b then 1 else 0.

(** What the condition of ?: is tested for: not a non-negative multiple of 2^63. *)
Definition test (z : Z) : bool := negb ((0 <=? z) && (z mod 2 ^ 63 =? 0)).

(** The value of an expression, given the values of the variables.  None: a division by
    zero is reached. *)
Fixpoint denote (rho : string -> Z) (e : expr) : option Z :=
  match e with
  | Lit z => Some z
  | Var x => Some (rho x)
  | Bin op a b =>
      match denote rho a, denote rho b with
      | Some x, Some y => zop op x y
      | _, _ => None
      end
  | Cmp op a b =>
      match denote rho a, denote rho b with
      | Some x, Some y => Some (b2z (zcmp op x y))
      | _, _ => None
      end
  | Not a => match denote rho a with Some x => Some (b2z (x =? 0)) | None => None end
  | Compl a => match denote rho a with Some x => Some (-1 - x) | None => None end
  | And a b =>
      match denote rho a with
      | Some x => if x =? 0 then Some 0 else
                  match denote rho b with Some y => Some (b2z (negb (y =? 0))) | None => None end
      | None => None
      end
  | Or a b =>
      match denote rho a with
      | Some x => if negb (x =? 0) then Some 1 else
                  match denote rho b with Some y => Some (b2z (negb (y =? 0))) | None => None end
      | None => None
      end
  | Cond c a b =>
      match denote rho c with
      | Some x => if test x then denote rho a else denote rho b
      | None => None
      end
  | Comma a b =>
      match denote rho a with Some _ => denote rho b | None => None end
  | Group a => denote rho a
  end.

(** The variables of an expression. *)
Fixpoint mentions (e : expr) (x : string) : Prop :=
  match e with
  | Lit _ => False
  | Var y => x = y
  | Bin _ a b | Cmp _ a b | And a b | Or a b | Comma a b => mentions a x \/ mentions b x
  | Not a | Compl a | Group a => mentions a x
  | Cond c a b => mentions c x \/ mentions a x \/ mentions b x
  end.
