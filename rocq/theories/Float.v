(** Conversions between fractions and floating-point numbers.

    Models /repo/include/ieme/floating_point.hpp:57-89 and 131-219, except
    floating_point_string_to_fraction (Parse.v).  Floating-point numbers are
    those of IEC 60559, as Flocq formalises them; a float or double is read
    through its bits.  Assumptions on the implementation: uint32_t and uint64_t
    store their bytes in the same order as float and double, conversion from
    integers and division round to nearest even, and a division by zero is the
    one of IEC 60559 (outside constant expressions). *)

From Coq Require Import ZArith List Bool.
From Flocq Require Import Core.
From Flocq Require Import IEEE754.BinarySingleNaN.
From Flocq Require Import IEEE754.Binary IEEE754.Bits.
From Verif Require Import Machine Raw Ops Fraction Fmath Limits.
Import ListNotations.
Open Scope Z_scope.

(** std::endian::native; other values make the program ill-formed or undefined
    (floating_point.hpp:168-179 falls off the end of the lambda). *)
Inductive endian : Type := little | big.

(** The object representation of an unsigned integer of [n] bytes. Of [result] and
    [value] at floating_point.hpp:144-149. *)
Fixpoint bytes_little (n : nat) (u : Z) : list Z :=
  match n with O => [] | S n' => u mod 256 :: bytes_little n' (u / 256) end.
(** The object representation in either byte order: floating_point.hpp:147-149. *)
Definition object_bytes (e : endian) (n : nat) (u : Z) : list Z :=
  match e with little => bytes_little n u | big => rev (bytes_little n u) end.
(** The unsigned integer with a given object representation. Of [result] at
    floating_point.hpp:144-150. *)
Fixpoint of_bytes_little (bs : list Z) : Z :=
  match bs with [] => 0 | b :: bs' => b + 256 * of_bytes_little bs' end.
(** The integer whose object representation memcpy has set: floating_point.hpp:147-150.
    *)
Definition uint_of_bytes (e : endian) (bs : list Z) : Z :=
  match e with little => of_bytes_little bs | big => of_bytes_little (rev bs) end.

(** floating_point.hpp:143-151: memcpy of a float with the bits [u]. *)
Definition as_uint_rep (e : endian) (size : nat) (u : Z) : Z :=
  uint_of_bytes e (object_bytes e size u).

(** floating_point.hpp:139-140, for counts below the width of UintRep. *)
Definition make_repeating_1s (count : Z) : Z := Z.shiftl 1 count - 1.

(** floating_point.hpp:153-156 *)
Definition extract_bit_field (u offset size : Z) : Z :=
  Z.land (Z.shiftr u offset) (make_repeating_1s size).

(** floating_point.hpp:158-179: sign, exponent and mantissa offsets. *)
Definition offsets (e : endian) (mantissa_bits exponent_bits : Z) : Z * Z * Z :=
  match e with
  | little => (mantissa_bits + exponent_bits, mantissa_bits, 0)
  | big => (0, 1, 1 + exponent_bits)
  end.

(** floating_point.hpp:131-210.  [size] is sizeof(Float), [u] the bits of the
    argument.  mantissa_fraction_denominator and exponent_bias are constant
    expressions, so undefined behaviour there is a compile-time error. *)
Definition floating_point_to_fraction (p : policy) (t : rep) (e : endian) (size : nat)
  (mantissa_bits exponent_bits : Z) (u : Z) : res raw :=
  let w := as_uint_rep e size u in
  let '(sign_offset, exponent_offset, mantissa_offset) := offsets e mantissa_bits exponent_bits in
  let sign_part := extract_bit_field w sign_offset 1 in
  let exponent_part := extract_bit_field w exponent_offset exponent_bits in
  let mantissa_part := extract_bit_field w mantissa_offset mantissa_bits in
  if (exponent_part =? make_repeating_1s exponent_bits) && negb (mantissa_part =? 0)
  then Ok limits_undefined
  else
    do sign <- (if sign_part =? 0 then Ok 1 else m_neg t 1);
    do bias <- mu_pow2 int32 (exponent_bits - 1);
    do bias <- m_sub int32 bias 1;
    do exponent <- m_sub int32 (cast int32 exponent_part) bias;
    do mantissa_denominator <- mu_pow2 t (cast t mantissa_bits);
    let mantissa_fraction := mkRaw (cast t mantissa_part) mantissa_denominator in
    do mantissa <- f_arith p t t Plus (IR 1 mantissa_fraction);
    do signed_mantissa <- f_arith p t t Multiplies (IR sign mantissa);
    do power <- f_pow2 t exponent;
    f_arith p t t Multiplies (RR signed_mantissa power).

(** floating_point.hpp:57-63 *)
Definition to_fraction_float (p : policy) (t : rep) (e : endian) (x : binary32) : res raw :=
  floating_point_to_fraction p t e 4 23 8 (bits_of_b32 x).
(** floating_point.hpp:65-71 *)
Definition to_fraction_double (p : policy) (t : rep) (e : endian) (x : binary64) : res raw :=
  floating_point_to_fraction p t e 8 52 11 (bits_of_b64 x).

Section To_float.
Context (prec emax : Z) (prec_gt_0_ : Prec_gt_0 prec) (prec_lt_emax_ : Prec_lt_emax prec emax).
Context (nan : { x : binary_float prec emax | is_nan prec emax x = true }).

(** static_cast<Float>(integer), rounding to nearest even. floating_point.hpp:218. *)
Definition int_to_float (z : Z) : binary_float prec emax :=
  binary_normalize prec emax prec_gt_0_ prec_lt_emax_ mode_NE z 0 false.

(** floating_point.hpp:212-219; reduce is fraction_math.hpp:108-113 with the
    default mode. *)
Definition fraction_to_floating_point (t : rep) (v : raw) : res (binary_float prec emax) :=
  do r <- reduce t v normalize_signs_mode;
  Ok (Bdiv prec emax prec_gt_0_ prec_lt_emax_ (fun _ _ => nan) mode_NE
        (int_to_float (num r)) (int_to_float (den r))).
End To_float.

(** floating_point.hpp:73-77 *)
Definition to_float (t : rep) (v : raw) : res binary32 :=
  fraction_to_floating_point 24 128 eq_refl eq_refl default_nan_pl32 t v.
(** floating_point.hpp:79-83 *)
Definition to_double (t : rep) (v : raw) : res binary64 :=
  fraction_to_floating_point 53 1024 eq_refl eq_refl default_nan_pl64 t v.
(** floating_point.hpp:85-89, for the 80-bit extended format. *)
Definition long_double_nan : { x : binary_float 64 16384 | is_nan 64 16384 x = true } :=
  exist _ (Binary.B754_nan 64 16384 false (iter_nat xO 62 xH) eq_refl) eq_refl.
(** floating_point.hpp:85-89. *)
Definition to_long_double (t : rep) (v : raw) : res (binary_float 64 16384) :=
  fraction_to_floating_point 64 16384 eq_refl eq_refl long_double_nan t v.
