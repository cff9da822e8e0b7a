(** Specification of durations: a number of seconds. *)

From Coq Require Import ZArith QArith.
From Verif Require Import Machine Raw Ops Spec Fraction Chrono.

(** A period in lowest terms with 64-bit parts. *)
Definition wf_period (p : period) : Prop :=
  (0 < pnum p /\ 0 < pden p /\ Z.gcd (pnum p) (pden p) = 1)%Z /\
  in_rep int64 (pnum p) = true /\ in_rep int64 (pden p) = true.

Definition period_value (p : period) : Q := (inject_Z (pnum p) / inject_Z (pden p))%Q.

Definition count_value (c : count) : option Q :=
  match c with
  | IntCount _ z => Some (inject_Z z)
  | FracCount r => value r
  end.

(** How many seconds a count of a period is. *)
Definition seconds (v : option Q) (p : period) : option Q :=
  match v with Some q => Some (q * period_value p)%Q | None => None end.

(** The count is a value of its type, and fits the representation [t]. *)
Definition wf_count (t : rep) (c : count) : Prop :=
  match c with
  | IntCount s z => in_rep s z = true /\ in_rep t z = true
  | FracCount r => wf_raw t r
  end.

(** The conversion factor between two periods fits the representation; always
    so for 64-bit or wider signed representations. *)
Definition factor_fits (t : rep) (a b : period) : Prop :=
  forall n d : Z, (0 < n)%Z -> (0 < d)%Z -> Z.gcd n d = 1%Z ->
  (inject_Z n / inject_Z d == period_value a / period_value b)%Q ->
  (n <= rmax t /\ d <= rmax t)%Z.
