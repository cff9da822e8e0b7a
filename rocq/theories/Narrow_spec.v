(** Specification for C108: types narrower than int. *)

From Coq Require Import ZArith.
From Verif Require Import Machine Raw Ops Fraction_spec.
Open Scope Z_scope.

Definition narrow (t : rep) : Prop := 8 <= rbits t < 32.
(** Products of two values of the type fit in an int: short, signed char and unsigned
    char, but not unsigned short. *)
Definition short_enough (t : rep) : Prop := rmax t <= 32767.

(** The policy reduces no operands. *)
Fixpoint no_input_layers (o : ops) : Prop :=
  match o with
  | Safe | Fast => True
  | ReducedInput _ _ => False
  | ReducedOutput o _ => no_input_layers o
  end.

(** std::lcm of the denominators is defined in the narrow type. *)
Definition lcm_fits (t : rep) (l r : raw) : Prop :=
  Z.abs (den l) <= rmax t /\ Z.abs (den r) <= rmax t /\ Z.lcm (den l) (den r) <= rmax t.
