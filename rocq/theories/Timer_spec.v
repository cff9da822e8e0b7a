(** Specification for C103: the number of seconds after a sequence of steps. *)

From Coq Require Import ZArith QArith List.
From Verif Require Import Machine Raw Ops Spec Fraction Chrono Chrono_spec Timer.
Import ListNotations.

Definition step_seconds (s : option Q) (x : step) : option Q :=
  match x with
  | Move op pd c => exact_opt op s (seconds (count_value c) pd)
  | Scale op f => exact_opt op s (value f)
  end.
Definition all_seconds (s : option Q) (xs : list step) : option Q := fold_left step_seconds xs s.

(** The operators that exist; the operands are values of their types, and a divisor is
    defined. *)
Definition wf_step (t : rep) (x : step) : Prop :=
  match x with
  | Move op pd c => (op = Plus \/ op = Minus \/ op = Modulus) /\ wf_period pd /\ wf_count t c
  | Scale op f => (op = Multiplies \/ op = Divides /\ value f <> None) /\ wf_raw t f
  end.

(** A step that adds a duration, and the seconds it adds. *)
Definition adds (x : step) : Prop := exists pd c q, x = Move Plus pd c /\ count_value c = Some q.
Definition added (x : step) : Q :=
  match x with
  | Move _ pd c => match count_value c with Some q => q * period_value pd | None => 0 end
  | Scale _ _ => 0
  end.
Definition total_added (xs : list step) : Q := fold_right Qplus 0%Q (map added xs).
