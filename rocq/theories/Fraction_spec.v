(** Specification for the operators of fraction<Rep, Ops>: what a sequence of
    assignments and an expression denote in the rationals. *)

From Coq Require Import ZArith QArith List Bool.
From Verif Require Import Machine Raw Ops Spec Fraction.
Import ListNotations.

(** Operands of representations [tl] (left) and [tr] (right). *)
Definition wf_args2 (tl tr : rep) (a : args) : Prop :=
  match a with
  | RR l r => wf_raw tl l /\ wf_raw tr r
  | RI l z => wf_raw tl l /\ in_rep tr z = true
  | IR z r => in_rep tl z = true /\ wf_raw tr r
  end.

(** Fractions need a representation of at least the width of int; an integer
    operand may have any integral type. *)
Definition wf_reps (tl tr : rep) (a : args) : Prop :=
  match a with
  | RR _ _ => wf_rep tl /\ wf_rep tr
  | RI _ _ => wf_rep tl /\ (1 < rbits tr)%Z
  | IR _ _ => (1 < rbits tl)%Z /\ wf_rep tr
  end.

(** No part is negative. *)
Definition non_negative_args (a : args) : Prop :=
  match a with
  | RR l r => (0 <= num l /\ 0 <= den l /\ 0 <= num r /\ 0 <= den r)%Z
  | RI l z => (0 <= num l /\ 0 <= den l /\ 0 <= z)%Z
  | IR z r => (0 <= z /\ 0 <= num r /\ 0 <= den r)%Z
  end.

Definition operand_value (x : operand) : option Q :=
  match x with
  | FracOperand _ r => value r
  | IntOperand _ z => Some (inject_Z z)
  end.

(** The operand is a value of its own type and of type [t]. *)
Definition operand_fits (t : rep) (x : operand) : Prop :=
  match x with
  | FracOperand s r => wf_raw s r /\ wf_raw t r
  | IntOperand s z => in_rep s z = true /\ in_rep t z = true
  end.

(** The rational a sequence of assignments denotes. *)
Fixpoint assign_value (v : option Q) (xs : list (arith_op * operand)) : option Q :=
  match xs with
  | [] => v
  | (op, x) :: xs => assign_value (exact_opt op v (operand_value x)) xs
  end.

(** The rational an expression denotes; [None] when it involves a division by
    zero or an undefined leaf. *)
Fixpoint denotes (e : expr) : option Q :=
  match e with
  | Leaf r => value r
  | Pos e => denotes e
  | Neg e => opp_opt (denotes e)
  | Bin op l r => exact_opt op (denotes l) (denotes r)
  | BinInt op l z => exact_opt op (denotes l) (Some (inject_Z z))
  | IntBin op z r => exact_opt op (Some (inject_Z z)) (denotes r)
  end.

(** Every leaf and integer of the expression is a value of the type. *)
Fixpoint wf_expr (t : rep) (e : expr) : Prop :=
  match e with
  | Leaf r => wf_raw t r
  | Pos e | Neg e => wf_expr t e
  | Bin _ l r => wf_expr t l /\ wf_expr t r
  | BinInt _ l z => wf_expr t l /\ in_rep t z = true
  | IntBin _ z r => in_rep t z = true /\ wf_expr t r
  end.

(** The expression is an operator application (not just a leaf). *)
Fixpoint is_operation (e : expr) : bool :=
  match e with Leaf _ => false | Pos e => is_operation e | _ => true end.

(** Magnitude bound: leaves and integers at most [B]. *)
Fixpoint expr_bounded (B : Z) (e : expr) : Prop :=
  match e with
  | Leaf r => raw_bounded B r
  | Pos e | Neg e => expr_bounded B e
  | Bin _ l r => expr_bounded B l /\ expr_bounded B r
  | BinInt _ l z => expr_bounded B l /\ (Z.abs z <= B)%Z
  | IntBin _ z r => (Z.abs z <= B)%Z /\ expr_bounded B r
  end.

(** Nesting depth of binary operators. *)
Fixpoint depth (e : expr) : nat :=
  match e with
  | Leaf _ => 0
  | Pos e | Neg e => depth e
  | Bin _ l r => S (Nat.max (depth l) (depth r))
  | BinInt _ l _ => S (depth l)
  | IntBin _ _ r => S (depth r)
  end.

(** The bound after [n] nested operators. *)
Fixpoint grow (n : nat) (B : Z) : Z :=
  match n with O => B | S n => (2 * grow n B * grow n B)%Z end.
