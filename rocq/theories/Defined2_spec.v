(** Specification for C83: when rounding under the default policy is defined, in
    terms of the rational in lowest terms. *)

From Coq Require Import ZArith QArith Qround.
From Verif Require Import Machine Raw Ops Fmath Defined_spec.
Open Scope Z_scope.

(** Twice the fractional part, and the fraction below, can be written over the
    denominator. *)
Definition round_fits (M : Z) (q : Q) : Prop :=
  Z.lcm (low_den q) 2 <= M /\ - M - 1 <= Qfloor q * low_den q.

(** Writing [q] over [d]. *)
Definition redenominate_fits (M : Z) (m : round_mode) (q : Q) (d : Z) : Prop :=
  Z.abs (low_num q * d) <= M /\
  match m with
  | round_trunc => True
  | round_ceil | round_floor => d <> - M - 1
  | round_round => round_fits M (q * inject_Z d)
  end.
