(** Specification of reductions over a range. *)

From Coq Require Import ZArith QArith List Bool.
From Verif Require Import Machine Raw Ops Spec Fraction Fraction_spec.
Import ListNotations.
Open Scope Z_scope.

(** The expression applies only the operator [op], in some bracketing. *)
Fixpoint only_op (op : arith_op) (e : expr) : Prop :=
  match e with
  | Leaf _ => True
  | Bin op' l r => op' = op /\ only_op op l /\ only_op op r
  | _ => False
  end.

(** Its operands, from left to right. *)
Fixpoint leaves (e : expr) : list raw :=
  match e with
  | Leaf r => [r]
  | Pos e | Neg e => leaves e
  | Bin _ l r => leaves l ++ leaves r
  | BinInt _ l _ => leaves l
  | IntBin _ _ r => leaves r
  end.

(** Expanding [x] by some factor gives n/D. *)
Definition over (D n : Z) (x : raw) : Prop :=
  den x <> 0 /\ exists c, D = c * den x /\ n = c * num x.

(** Every partial sum of [n :: ns] and every summand has magnitude at most [M]. *)
Fixpoint partial_sums_fit (M n : Z) (ns : list Z) : Prop :=
  Z.abs n <= M /\
  match ns with
  | [] => True
  | m :: ns => Z.abs m <= M /\ partial_sums_fit M (n + m) ns
  end.

Definition zsum (ns : list Z) : Z := fold_right Z.add 0 ns.
