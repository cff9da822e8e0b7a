(** Specification for C114: the laws of rounding. *)

From Coq Require Import ZArith QArith.
From Verif Require Import Machine Raw Ops Spec Fmath Fraction_spec.
Open Scope Z_scope.

(** Rounding to the nearest integer subtracts and compares: the policy must compare
    fractions rightly, or the denominator be positive.  The other modes only divide. *)
Definition compares_well (o : ops) (m : round_mode) (v : raw) : Prop :=
  m = round_round -> built_on_safe o = true \/ normalises_inputs o = true \/ 0 < den v.

(** [q] is a whole number. *)
Definition whole (q : Q) : Prop := exists n, (q == inject_Z n)%Q.
