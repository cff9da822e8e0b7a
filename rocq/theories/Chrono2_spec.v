(** Specification of scalars multiplying durations. *)

From Coq Require Import ZArith QArith.
From Verif Require Import Machine Raw Ops Spec Chrono2.

Definition scalar_value (s : scalar) : option Q :=
  match s with FracScalar r => value r | IntScalar _ z => Some (inject_Z z) end.

(** An integer is a value of its type that fits [t], the wider of the two. *)
Definition wf_scalar (t : rep) (s : scalar) : Prop :=
  match s with
  | FracScalar r => wf_raw t r
  | IntScalar s z => in_rep s z = true /\ in_rep t z = true /\ common_rep t s = t
  end.
