(** Property theorems: conversions from floating point to fractions of unsigned integers.

    Each is closed by the lemma of the same name in FloatUnsigned_claims.v. *)

From Coq Require Import ZArith QArith Qabs Lia Lqa.
From Flocq Require Import IEEE754.Binary IEEE754.Bits.
From Verif Require Import Machine Raw Ops Spec Fraction Float Float_spec Mixed_spec Unsigned_spec.
From Verif Require Import Machine_proofs Value_proofs Unsigned_proofs Float_proofs Float2_proofs Float4_proofs Float5_proofs.
Open Scope Z_scope.
From Verif Require Import FloatUnsigned_claims.

(** C80: for a positive number to_fraction of an unsigned type gives what the
    signed type one bit wider gives, where that is defined. *)
Theorem C80_float_as_signed : forall o t s (x : binary32) q r,
  widens t s -> rbits t < 2 ^ 31 -> float_value x = Some q -> (0 < q)%Q ->
  to_fraction_float (denote o) s little x = Ok r -> to_fraction_float (denote o) t little x = Ok r.
Proof. exact c80_float_as_signed. Qed.
Print Assumptions C80_float_as_signed.

(** C80 *)
Theorem C80_double_as_signed : forall o t s (x : binary64) q r,
  widens t s -> 53 <= rbits t < 2 ^ 31 -> float_value x = Some q -> (0 < q)%Q ->
  to_fraction_double (denote o) s little x = Ok r -> to_fraction_double (denote o) t little x = Ok r.
Proof. exact c80_double_as_signed. Qed.
Print Assumptions C80_double_as_signed.

(** C80: under every policy the result is defined and exact between 2^-(bits-24)
    and 2^(bits-23), for unsigned int 2^-8 and 2^9. *)
Theorem C80_float_total : forall o t (x : binary32) q,
  unsigned_rep t -> rbits t < 2 ^ 31 -> float_value x = Some q -> (0 < q)%Q ->
  between (Z.max (-126) (24 - rbits t)) (rbits t - 23) q ->
  exists r, to_fraction_float (denote o) t little x = Ok r /\ same_value (value r) (Some q).
Proof. exact c80_float_total. Qed.
Print Assumptions C80_float_total.

(** C80: for 64 bits, between 2^-11 and 2^12. *)
Theorem C80_double_total : forall o t (x : binary64) q,
  unsigned_rep t -> 53 <= rbits t < 2 ^ 31 -> float_value x = Some q -> (0 < q)%Q ->
  between (Z.max (-1022) (53 - rbits t)) (rbits t - 52) q ->
  exists r, to_fraction_double (denote o) t little x = Ok r /\ same_value (value r) (Some q).
Proof. exact c80_double_total. Qed.
Print Assumptions C80_double_total.

(** C80: under a policy with canonical results, wherever the bits of the mantissa
    in use and the exponent together fit in bits-1. *)
Theorem C80_float_significant : forall o t (x : binary32) q k e,
  output_canonical o = true -> unsigned_rep t -> rbits t < 2 ^ 31 -> float_value x = Some q -> (0 < q)%Q ->
  significant k e q -> -126 <= e -> k + Z.abs e <= rbits t - 1 ->
  exists r, to_fraction_float (denote o) t little x = Ok r /\ same_value (value r) (Some q).
Proof. exact c80_float_significant. Qed.
Print Assumptions C80_float_significant.

(** C80: what is returned for a negative number is never its value, since no
    fraction of unsigned integers is negative. *)
Theorem C80_negative_refuted :
  (forall o t (x : binary32) q r, unsigned_rep t -> float_value x = Some q -> (q < 0)%Q ->
     to_fraction_float (denote o) t little x = Ok r -> ~ same_value (value r) (Some q)) /\
  exists x : binary32, float_value x = Some (-8388608 * (2 # 1) ^ (-23))%Q /\
    to_fraction_float (denote defaults) uint32 little x = Ok (mkRaw 4294967295 1).
Proof. exact c80_negative_refuted. Qed.
Print Assumptions C80_negative_refuted.

(** C80: beyond the range the result is silently wrong, unlike with signed types:
    2^31 + 2^8 as a fraction of unsigned int is 256/1. *)
Theorem C80_overflow_refuted : exists (x : binary32) q r,
  float_value x = Some q /\ (0 < q)%Q /\
  to_fraction_float (denote defaults) uint32 little x = Ok r /\ ~ same_value (value r) (Some q).
Proof. exact c80_overflow_refuted. Qed.
Print Assumptions C80_overflow_refuted.

Example C80_example :
  (* 2.625f = 21/8 in unsigned int *)
  let x := b32_of_bits 0x40280000 in
  exists q, float_value x = Some q /\ (q == 21 # 8)%Q /\ (0 < q)%Q /\
  between (Z.max (-126) (24 - rbits uint32)) (rbits uint32 - 23) q /\ significant 4 1 q /\
  to_fraction_float (denote defaults) uint32 little x = Ok (mkRaw 21 8) /\
  to_fraction_float (denote defaults) (mkRep true 33) little x = Ok (mkRaw 21 8).
Proof.
  cbn zeta. eexists. split; [reflexivity|]. split; [reflexivity|]. split; [reflexivity|].
  split; [split; [discriminate|reflexivity]|]. split; [exists 21; split; [lia|reflexivity]|].
  split; vm_compute; reflexivity.
Qed.
