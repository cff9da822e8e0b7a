(** Specification for C90: when converting a literal is defined. *)

From Coq Require Import ZArith QArith.
From Verif Require Import Parse_spec Defined_spec.
Open Scope Z_scope.

(** The number before the exponent, and the power the exponent stands for. *)
Definition mantissa (l : literal) : Q :=
  (inject_Z (seq_value (l_base l) (l_whole l))
   + inject_Z (seq_value (l_base l) (l_fraction l)) / inject_Z (l_base l ^ num_digits (l_fraction l)))%Q.
Definition power (l : literal) : Z := (if is_hex l then 2 else 10) ^ Z.abs (l_scale l).

(** The parts of the literal and the result, before its last reduction, fit. [M] is the
    greatest integer of the representation. *)
Definition literal_fits (M : Z) (l : literal) : Prop :=
  l_base l ^ num_digits (l_whole l) <= M /\ l_base l ^ num_digits (l_fraction l) <= M /\
  exponent_digits l <= 9 /\ power l <= M /\
  if 0 <=? l_scale l then low_num (mantissa l) * power l <= M
  else low_num (mantissa l) <= M /\ low_den (mantissa l) * power l <= M.
