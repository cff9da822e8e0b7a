(** Specification for C85: when a conversion of a fractional duration, or an operation
    on two, is defined under the default policy. *)

From Coq Require Import ZArith QArith.
From Verif Require Import Machine Raw Ops Spec Chrono Chrono_spec Defined_spec.
Open Scope Z_scope.

(** An integer count of its type, or a fraction, with parts of magnitude at most [M]. *)
Definition count_bounded (M : Z) (c : count) : Prop :=
  match c with
  | IntCount s z => in_rep s z = true /\ Z.abs z <= M
  | FracCount r => raw_bounded M r
  end.

(** The ratio n/d, in lowest terms, of two periods; std::ratio computes in 64 bits. *)
Definition is_factor (a b : period) (n d : Z) : Prop :=
  0 < n <= rmax int64 /\ 0 < d <= rmax int64 /\ Z.gcd n d = 1 /\
  (inject_Z n / inject_Z d == period_value a / period_value b)%Q.

(** [q] times [n] divided by [d]: the product of the numerators and that of the
    denominators, each in lowest terms, fit. *)
Definition scale_fits (M : Z) (q : Q) (n d : Z) : Prop :=
  Z.abs (low_num q * n) <= M /\ low_den (q * inject_Z n) * d <= M.
