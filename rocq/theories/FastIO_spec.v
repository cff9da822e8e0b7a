(** Specification for C87: when an operation of [fast_reduced_io] is defined, in terms
    of the two rational operands in lowest terms. *)

From Coq Require Import ZArith QArith.
From Verif Require Import Raw Ops Fraction Defined_spec.
Open Scope Z_scope.

(** Both operands can be written over the product of their denominators by integers
    from -M-1 to M. *)
Definition cross_fits (M : Z) (a b : Q) : Prop :=
  - M - 1 <= low_num a * low_den b <= M /\ - M - 1 <= low_num b * low_den a <= M.

(** [M] is the greatest integer of the representation. *)
Definition fast_enough (M : Z) (op : arith_op) (a b : Q) : Prop :=
  let x := low_num a * low_den b in
  let y := low_num b * low_den a in
  let d := low_den a * low_den b in
  match op with
  | Plus => cross_fits M a b /\ d <= M /\ Z.abs (x + y) <= M
  | Minus => cross_fits M a b /\ d <= M /\ Z.abs (x - y) <= M
  | Multiplies => Z.abs (low_num a * low_num b) <= M /\ d <= M
  | Divides => (b == 0)%Q \/ Z.abs x <= M /\ Z.abs y <= M
  | Modulus => cross_fits M a b /\ d <= M /\ ~ (b == 0)%Q /\ ~ (x = - M - 1 /\ y = -1)
  end.

(** Every leaf of the expression has a positive denominator. *)
Fixpoint positive_leaves (e : expr) : Prop :=
  match e with
  | Leaf r => 0 < den r
  | Pos e | Neg e => positive_leaves e
  | Bin _ l r => positive_leaves l /\ positive_leaves r
  | BinInt _ l _ => positive_leaves l
  | IntBin _ _ r => positive_leaves r
  end.
