(** Specification of floating-point values. *)

From Coq Require Import ZArith QArith Qabs.
From Flocq Require Import IEEE754.Binary.
From Verif Require Import Machine Raw Ops.

(** The rational a floating-point number denotes: infinities and NaNs denote
    none. *)
Definition float_value {prec emax : Z} (x : binary_float prec emax) : option Q :=
  match x with
  | B754_zero _ _ _ => Some 0
  | B754_finite _ _ s m e _ => Some (inject_Z (if s then Zneg m else Zpos m) * (2 # 1) ^ e)
  | _ => None
  end%Q.

(** 2^a <= |q| < 2^b *)
Definition between (a b : Z) (q : Q) : Prop := ((2 # 1) ^ a <= Qabs q /\ Qabs q < (2 # 1) ^ b)%Q.

(** q has at most k+1 significant bits and lies between 2^e and 2^(e+1). *)
Definition significant (k e : Z) (q : Q) : Prop :=
  exists n : Z, (0 <= k /\ 2 ^ k <= n < 2 ^ (k + 1))%Z /\ (Qabs q == inject_Z n * (2 # 1) ^ (e - k))%Q.

(** z is an integer of at most [prec] significant bits. *)
Definition exactly_representable (prec : Z) (z : Z) : Prop :=
  exists m k, (0 <= k /\ z = m * 2 ^ k /\ Z.abs m < 2 ^ prec)%Z.

(** The bits of a floating-point number in another order: the lowest bit becomes the
    sign, the [ew] bits above it the exponent and the rest the mantissa. *)
Definition rearranged (mw ew u : Z) : Z :=
  ((u mod 2) * 2 ^ (mw + ew) + ((u / 2) mod 2 ^ ew) * 2 ^ mw + u / 2 ^ (1 + ew))%Z.
