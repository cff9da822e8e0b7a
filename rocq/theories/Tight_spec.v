(** Sizes of the textbook cross products. *)

From Coq Require Import ZArith.
From Verif Require Import Machine Raw Ops.
Open Scope Z_scope.

(** Every part of the operands and every product of the schoolbook formula for
    the operation has magnitude at most [M]; for sums the two products
    together.  [/] and [*] need no definedness; [+], [-] and [%] do. *)
Definition products_fit (M : Z) (op : arith_op) (l r : raw) : Prop :=
  (Z.abs (num l) <= M /\ Z.abs (den l) <= M /\ Z.abs (num r) <= M /\ Z.abs (den r) <= M) /\
  match op with
  | Plus | Minus =>
      den l <> 0 /\ den r <> 0 /\
      Z.abs (num l * den r) + Z.abs (num r * den l) <= M /\ Z.abs (den l * den r) <= M
  | Multiplies => Z.abs (num l * num r) <= M /\ Z.abs (den l * den r) <= M
  | Divides => Z.abs (num l * den r) <= M /\ Z.abs (den l * num r) <= M
  | Modulus =>
      den l <> 0 /\ den r <> 0 /\ num r <> 0 /\
      Z.abs (num l * den r) <= M /\ Z.abs (num r * den l) <= M /\ Z.abs (den l * den r) <= M
  end.

(** The same for comparisons, of possibly undefined operands. *)
Definition cross_fit (M : Z) (l r : raw) : Prop :=
  Z.abs (num l) <= M /\ Z.abs (den l) <= M /\ Z.abs (num r) <= M /\ Z.abs (den r) <= M /\
  Z.abs (num l * den r) <= M /\ Z.abs (num r * den l) <= M /\ Z.abs (den l * den r) <= M.

(** The operands as fractions; an integer z is z/1. *)
Definition left_raw (a : args) : raw :=
  match a with RR l _ | RI l _ => l | IR z _ => mkRaw z 1 end.
Definition right_raw (a : args) : raw :=
  match a with RR _ r | IR _ r => r | RI _ z => mkRaw z 1 end.
