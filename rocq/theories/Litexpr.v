(** Expressions over fraction literals, integers and fractions of any representation and
    policy: the compiler chooses an overload from the types of the operands (Overload.v),
    and the function chosen is executed.

    Simplifications: operands have no side effects; an operator between two integers is
    left out, and so is everything done with a fraction whose representation is a literal
    (2_fr / 3_fr compiles and has that type). *)

From Coq Require Import ZArith List Bool.
From Verif Require Import Machine Raw Ops Fraction Literals Overload.
Open Scope Z_scope.

(** Client expressions: an integer of some type, n_fr (fraction_literals.hpp:70-74), a
    fraction (fraction.hpp:28-66) of representation [t] and policy [o], a unary plus
    or minus (fraction.hpp:575-585, fraction_literals.hpp:76-88) and a binary operator
    (fraction.hpp:587-660, fraction_literals.hpp:90-104). *)
Inductive lexp : Type :=
| LInt (t : rep) (z : Z)
| LFr (n : Z)
| LFrac (t : rep) (o : nat) (v : raw)
| LUnary (minus : bool) (e : lexp)
| LBinary (op : arith_op) (l r : lexp).

(** Their values. A denominator_literal (fraction_literals.hpp:16-32) is signed or not. *)
Inductive lval : Type :=
| VInt (t : rep) (z : Z)
| VLit (s : bool) (z : Z)
| VFrac (t : rep) (o : nat) (v : raw).

(** The policies of a program have numbers; that of literals, the default argument at
    fraction_literals.hpp:15, has number 0. *)
Definition lit_type (s : bool) : cty := Den (Flag s) (Other 0).

(** Is it the type of one of these values? See the simplification above; the types are
    at fraction.hpp:28-66 and fraction_literals.hpp:15-32. *)
Definition followed (t : cty) : bool :=
  match t with Num _ | Frac (Num _) (Other _) | Den (Flag _) (Other _) => true | _ => false end.

(** The type of an expression, [None] if it does not compile. A call has the result type
    of the function chosen, fraction.hpp:77-193, fraction_literals.hpp:34-53. *)
Definition called (x : outcome) : option cty :=
  match x with
  | Call Deleted _ _ => None
  | Call _ _ t => if followed t then Some t else None
  | _ => None
  end.
(** See [called]: fraction.hpp:77-193, fraction_literals.hpp:34-53. *)
Fixpoint type_of (w : world) (e : lexp) : option cty :=
  match e with
  | LInt t _ => Some (Num t)
  | LFr _ => Some (lit_type false)
  | LFrac t o _ => Some (Frac (Num t) (Other o))
  | LUnary m e => match type_of w e with Some t => called (resolve_unary w m t) | None => None end
  | LBinary op l r =>
      match type_of w l, type_of w r with
      | Some t, Some u => called (resolve w (OArith op) t u false)
      | _, _ => None
      end
  end.

(** The type of a value, one of those at fraction.hpp:28-66 and
    fraction_literals.hpp:15-32. *)
Definition type_of_value (v : lval) : cty :=
  match v with
  | VInt t _ => Num t
  | VLit s _ => lit_type s
  | VFrac t o _ => Frac (Num t) (Other o)
  end.

(** A call of the unary operator chosen: fraction.hpp:575-585,
    fraction_literals.hpp:76-88; [None]: it does not take that operand. *)
Definition call_unary (pol : nat -> ops) (n : name) (ty : cty) (minus : bool) (a : lval) : res (option lval) :=
  match n, ty, a with
  | FracUnary, Frac (Num t) (Other o), VFrac _ _ v =>
      if minus then do r <- f_negate (denote (pol o)) t v; Ok (Some (VFrac t o r))
      else Ok (Some (VFrac t o (f_posate v)))
  | DenUnary, Den (Flag s) _, VLit _ z =>
      if minus then do r <- literal_negate z; Ok (Some (VLit s r))
      else Ok (Some (VLit s (literal_posate z)))
  | _, _, _ => Ok None
  end.

(** A call of the binary operator chosen: fraction.hpp:587-660,
    fraction_literals.hpp:90-104. *)
Definition call_binary (pol : nat -> ops) (n : name) (ty : cty) (op : arith_op) (a b : lval) : res (option lval) :=
  match n, ty, a, b with
  | FracFrac, Frac (Num c) (Other o), VFrac t _ x, VFrac u _ y =>
      do r <- f_arith (denote (pol o)) t u op (RR x y); Ok (Some (VFrac c o r))
  | FracNum, Frac (Num c) (Other o), VFrac t _ x, VInt u z =>
      do r <- f_arith (denote (pol o)) t u op (RI x z); Ok (Some (VFrac c o r))
  | NumFrac, Frac (Num c) (Other o), VInt t z, VFrac u _ y =>
      do r <- f_arith (denote (pol o)) t u op (IR z y); Ok (Some (VFrac c o r))
  | FracDen, Frac (Num c) (Other o), VFrac t _ x, VLit _ d =>
      do r <- literal_divide_fraction (denote (pol o)) t x d; Ok (Some (VFrac c o r))
  | NumDen, Frac (Num c) (Other o), VInt _ z, VLit _ d =>
      Ok (Some (VFrac c o (literal_divide_int c z d)))
  | _, _, _, _ => Ok None
  end.

(** Evaluation; [None] if the expression does not compile. fraction.hpp:575-660,
    fraction_literals.hpp:70-104. *)
Fixpoint leval (w : world) (pol : nat -> ops) (e : lexp) : res (option lval) :=
  match e with
  | LInt t z => Ok (Some (VInt t z))
  | LFr n => Ok (Some (VLit false (literal_fr n)))
  | LFrac t o v => Ok (Some (VFrac t o v))
  | LUnary m e =>
      do a <- leval w pol e;
      match a with
      | Some a =>
          match resolve_unary w m (type_of_value a) with
          | Call n _ ty => call_unary pol n ty m a
          | _ => Ok None
          end
      | None => Ok None
      end
  | LBinary op l r =>
      do a <- leval w pol l;
      do b <- leval w pol r;
      match a, b with
      | Some a, Some b =>
          match resolve w (OArith op) (type_of_value a) (type_of_value b) false with
          | Call n _ ty => call_binary pol n ty op a b
          | _ => Ok None
          end
      | _, _ => Ok None
      end
  end.
