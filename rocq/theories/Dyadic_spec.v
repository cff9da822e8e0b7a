(** Specification for C102: computations with floating-point numbers through fractions. *)

From Coq Require Import ZArith QArith List Reals.
From Flocq Require Import Core.
From Flocq Require Import IEEE754.Binary IEEE754.Bits.
From Verif Require Import Machine Raw Ops Fraction.
Import ListNotations.
Open Scope Z_scope.

(** An integer over a power of two. *)
Definition dyadic (q : Q) : Prop := exists n k, 0 <= k /\ (q == inject_Z n / inject_Z (2 ^ k))%Q.

(** The expression only adds, subtracts and multiplies. *)
Definition ring_op (op : arith_op) : Prop := op = Plus \/ op = Minus \/ op = Multiplies.
Fixpoint polynomial (e : expr) : Prop :=
  match e with
  | Leaf _ => True
  | Pos e | Neg e => polynomial e
  | Bin op l r => ring_op op /\ polynomial l /\ polynomial r
  | BinInt op l _ => ring_op op /\ polynomial l
  | IntBin op _ r => ring_op op /\ polynomial r
  end.

(** The nearest double, ties to even, and the exact sum of doubles. *)
Definition to_nearest_double (x : R) : R := round radix2 (FLT_exp (-1074) 53) ZnearestE x.
Definition real_sum (xs : list binary64) : R := fold_right Rplus 0%R (map (B2R 53 1024) xs).
