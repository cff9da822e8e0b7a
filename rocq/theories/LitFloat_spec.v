(** Specification of floating-point literals converted through a fraction. *)

From Coq Require Import ZArith QArith Qabs.
From Flocq Require Import IEEE754.Binary.
From Verif Require Import Machine Raw Ops Parse Parse_spec Float_spec.
Open Scope Z_scope.

(** A bound on the numerator and the denominator the literal is written with: a power of
    the base past the digits, times the power of the exponent. *)
Definition literal_size (l : literal) : Z :=
  l_base l ^ (num_digits (l_whole l) + num_digits (l_fraction l))
  * (if is_hex l then 2 else 10) ^ Z.abs (l_scale l).

(** No number of the floating-point type is closer to q than x. *)
Definition nearest {prec emax : Z} (q : Q) (x : binary_float prec emax) : Prop :=
  exists qx, float_value x = Some qx /\
    forall (y : binary_float prec emax) qy, float_value y = Some qy -> (Qabs (qx - q) <= Qabs (qy - q))%Q.
