(** Property theorems: conversions from and to floating-point numbers.

    Each is closed by the lemma of the same name in Float_claims.v. *)

From Coq Require Import ZArith Reals QArith Qabs Qreduction Lia Lqa.
From Flocq Require Import Core.
From Flocq Require Import IEEE754.Binary IEEE754.Bits.
From Verif Require Import Machine Raw Ops Spec Fraction Float Float_spec Mixed_spec.
From Verif Require Import Machine_proofs Value_proofs Ops_proofs Tight_proofs Float_proofs Float2_proofs Float4_proofs.
Open Scope Z_scope.
From Verif Require Import Float_claims.

(** C38: whatever to_fraction returns, for any bit pattern, is exactly the value
    of its argument. *)
Theorem C38_float_exact : forall o t (x : binary32) r,
  signed_rep t -> rbits t <= 128 ->
  to_fraction_float (denote o) t little x = Ok r -> same_value (value r) (float_value x).
Proof. exact c38_float_exact. Qed.
Print Assumptions C38_float_exact.

(** C38 *)
Theorem C38_double_exact : forall o t (x : binary64) r,
  signed_rep t -> 54 <= rbits t <= 1024 ->
  to_fraction_double (denote o) t little x = Ok r -> same_value (value r) (float_value x).
Proof. exact c38_double_exact. Qed.
Print Assumptions C38_double_exact.

(** C38 (partial: not every representable value): under every policy the result is defined
    and exact when |x| is between 2^-(bits-25) and 2^(bits-24), for 64 bits
    2^-39 and 2^40. *)
Theorem C38_float_total_partial : forall o t (x : binary32) q,
  signed_rep t -> rbits t <= 2 ^ 31 -> float_value x = Some q ->
  between (Z.max (-126) (25 - rbits t)) (rbits t - 24) q ->
  exists r, to_fraction_float (denote o) t little x = Ok r /\ same_value (value r) (Some q).
Proof. exact c38_float_total_partial. Qed.
Print Assumptions C38_float_total_partial.

(** C38 (partial: not every representable value): for 64 bits |x| between 2^-10 and 2^11. *)
Theorem C38_double_total_partial : forall o t (x : binary64) q,
  signed_rep t -> 54 <= rbits t <= 2 ^ 31 -> float_value x = Some q ->
  between (Z.max (-1022) (54 - rbits t)) (rbits t - 53) q ->
  exists r, to_fraction_double (denote o) t little x = Ok r /\ same_value (value r) (Some q).
Proof. exact c38_double_total_partial. Qed.
Print Assumptions C38_double_total_partial.

(** C38 (partial: the bits of the mantissa in use and the exponent together fit
    in bits-2): policies with canonical results, such as the default. *)
Theorem C38_float_significant_partial : forall o t (x : binary32) q k e,
  output_canonical o = true -> signed_rep t -> rbits t <= 2 ^ 31 -> float_value x = Some q ->
  significant k e q -> -126 <= e -> k + Z.abs e <= rbits t - 2 ->
  exists r, to_fraction_float (denote o) t little x = Ok r /\ same_value (value r) (Some q).
Proof. exact c38_float_significant_partial. Qed.
Print Assumptions C38_float_significant_partial.

(** C38 (partial: as above) *)
Theorem C38_double_significant_partial : forall o t (x : binary64) q k e,
  output_canonical o = true -> signed_rep t -> 54 <= rbits t <= 2 ^ 31 -> float_value x = Some q ->
  significant k e q -> -1022 <= e -> k + Z.abs e <= rbits t - 2 ->
  exists r, to_fraction_double (denote o) t little x = Ok r /\ same_value (value r) (Some q).
Proof. exact c38_double_significant_partial. Qed.
Print Assumptions C38_double_significant_partial.

(** C38: for a policy with canonical results and a representation of at most 127
    bits this is exactly where the result is defined: the value is not zero, and
    the bits of the mantissa in use and the exponent together fit in bits-2. *)
Theorem C38_float_defined_iff : forall o t (x : binary32) q,
  output_canonical o = true -> signed_rep t -> rbits t <= 127 -> float_value x = Some q ->
  ((exists r, to_fraction_float (denote o) t little x = Ok r) <->
   (exists k e, significant k e q /\ k + Z.abs e <= rbits t - 2)).
Proof. exact c38_float_defined_iff. Qed.
Print Assumptions C38_float_defined_iff.

(** C38 *)
Theorem C38_double_defined_iff : forall o t (x : binary64) q,
  output_canonical o = true -> signed_rep t -> 54 <= rbits t <= 1023 -> float_value x = Some q ->
  ((exists r, to_fraction_double (denote o) t little x = Ok r) <->
   (exists k e, significant k e q /\ k + Z.abs e <= rbits t - 2)).
Proof. exact c38_double_defined_iff. Qed.
Print Assumptions C38_double_defined_iff.

Example C38_example :
  (* 0.1f, 13421773 / 2^27, in 64 bits *)
  let x := b32_of_bits 0x3DCCCCCD in
  float_value x = Some (inject_Z 13421773 * (2 # 1) ^ (-27))%Q /\
  between (Z.max (-126) (25 - rbits int64)) (rbits int64 - 24) (inject_Z 13421773 * (2 # 1) ^ (-27)) /\
  significant 23 (-4) (inject_Z 13421773 * (2 # 1) ^ (-27)) /\
  to_fraction_float (denote defaults) int64 little x = Ok (mkRaw 13421773 134217728).
Proof.
  cbn zeta. split; [reflexivity|]. split; [split; [discriminate|reflexivity]|].
  split; [|vm_compute; reflexivity]. exists 13421773. split; [lia|reflexivity].
Qed.

(** C38 is false for small numbers: for representations of at most 127 bits,
    every zero and every subnormal number is undefined behaviour under every
    policy (the shift count of the power of two is 127). *)
Theorem C38_zero_refuted : forall o t (x : binary32) q,
  signed_rep t -> rbits t <= 127 -> float_value x = Some q -> (Qabs q < (2 # 1) ^ (-126))%Q ->
  to_fraction_float (denote o) t little x = UB BadShift.
Proof. exact c38_zero_refuted. Qed.
Print Assumptions C38_zero_refuted.

Theorem C38_double_zero_refuted : forall o t (x : binary64) q,
  signed_rep t -> 54 <= rbits t <= 1023 -> float_value x = Some q -> (Qabs q < (2 # 1) ^ (-1022))%Q ->
  to_fraction_double (denote o) t little x = UB BadShift.
Proof. exact c38_double_zero_refuted. Qed.
Print Assumptions C38_double_zero_refuted.

Example C38_zero_example :
  float_value (b32_of_bits 0) = Some 0%Q /\ (Qabs 0 < (2 # 1) ^ (-126))%Q /\
  float_value (b64_of_bits 0) = Some 0%Q /\ (Qabs 0 < (2 # 1) ^ (-1022))%Q.
Proof. split; [reflexivity|]. split; [reflexivity|]. split; reflexivity. Qed.

(** C38 is false for other representable values: 2^40 + 2^17 overflows with 64
    bits under the default policy. *)
Theorem C38_representable_refuted : exists (x : binary32) r,
  float_value x = Some (inject_Z (2 ^ 23 + 1) * (2 # 1) ^ 17)%Q /\ wf_raw int64 r /\
  same_value (value r) (float_value x) /\
  to_fraction_float (denote defaults) int64 little x = UB Overflow.
Proof. exact c38_representable_refuted. Qed.
Print Assumptions C38_representable_refuted.

(** C39 (partial: the NaNs) *)
Theorem C39_nan_partial : forall p t,
  wf_rep t ->
  (forall x : binary32, is_nan 24 128 x = true -> to_fraction_float p t little x = Ok (mkRaw 0 0)) /\
  (forall x : binary64, is_nan 53 1024 x = true -> to_fraction_double p t little x = Ok (mkRaw 0 0)).
Proof. exact c39_nan_partial. Qed.
Print Assumptions C39_nan_partial.

Example C39_example :
  is_nan 24 128 (b32_of_bits 0x7FC00000) = true /\ is_nan 24 128 (b32_of_bits 0xFF800001) = true /\
  is_nan 53 1024 (b64_of_bits 0x7FF8000000000000) = true.
Proof. split; [reflexivity|]. split; reflexivity. Qed.

(** C39 is false for the infinities: undefined behaviour under every policy for
    representations of at most 128 (double: 1024) bits. *)
Theorem C39_infinity_refuted : forall o t,
  signed_rep t -> 54 <= rbits t ->
  (forall x : binary32, is_nan 24 128 x = false -> float_value x = None -> rbits t <= 128 ->
     to_fraction_float (denote o) t little x = UB BadShift) /\
  (forall x : binary64, is_nan 53 1024 x = false -> float_value x = None -> rbits t <= 1024 ->
     to_fraction_double (denote o) t little x = UB BadShift).
Proof. exact c39_infinity_refuted. Qed.
Print Assumptions C39_infinity_refuted.

Example C39_infinity_example :
  is_nan 24 128 (b32_of_bits 0x7F800000) = false /\ float_value (b32_of_bits 0x7F800000) = None /\
  is_nan 53 1024 (b64_of_bits 0xFFF0000000000000) = false /\ float_value (b64_of_bits 0xFFF0000000000000) = None.
Proof. split; [reflexivity|]. split; [reflexivity|]. split; reflexivity. Qed.

(** C40: correct rounding to nearest even, as Flocq defines it. *)
Theorem C40_correctly_rounded : forall t v q,
  wf_rep t -> wf_raw t v -> Z.abs (num v) <= rmax t -> Z.abs (den v) <= rmax t -> value v = Some q ->
  (rmax t <= 2 ^ 127 -> exactly_representable 24 (Qnum (Qred q)) -> exactly_representable 24 (Zpos (Qden (Qred q))) ->
   exists x, to_float t v = Ok x /\ is_finite 24 128 x = true /\
     B2R 24 128 x = round radix2 (FLT_exp (-149) 24) ZnearestE (Q2R q)) /\
  (rmax t <= 2 ^ 1023 -> exactly_representable 53 (Qnum (Qred q)) -> exactly_representable 53 (Zpos (Qden (Qred q))) ->
   exists x, to_double t v = Ok x /\ is_finite 53 1024 x = true /\
     B2R 53 1024 x = round radix2 (FLT_exp (-1074) 53) ZnearestE (Q2R q)) /\
  (rmax t <= 2 ^ 16383 -> exactly_representable 64 (Qnum (Qred q)) -> exactly_representable 64 (Zpos (Qden (Qred q))) ->
   exists x, to_long_double t v = Ok x /\ is_finite 64 16384 x = true /\
     B2R 64 16384 x = round radix2 (FLT_exp (-16445) 64) ZnearestE (Q2R q)).
Proof. exact c40_correctly_rounded. Qed.
Print Assumptions C40_correctly_rounded.

(** C40: no floating-point number is closer. *)
Theorem C40_nearest : forall t v q,
  wf_rep t -> wf_raw t v -> Z.abs (num v) <= rmax t -> Z.abs (den v) <= rmax t -> value v = Some q ->
  (rmax t <= 2 ^ 127 -> exactly_representable 24 (Qnum (Qred q)) -> exactly_representable 24 (Zpos (Qden (Qred q))) ->
   exists x qx, to_float t v = Ok x /\ float_value x = Some qx /\
     forall (y : binary32) qy, float_value y = Some qy -> (Qabs (qx - q) <= Qabs (qy - q))%Q) /\
  (rmax t <= 2 ^ 1023 -> exactly_representable 53 (Qnum (Qred q)) -> exactly_representable 53 (Zpos (Qden (Qred q))) ->
   exists x qx, to_double t v = Ok x /\ float_value x = Some qx /\
     forall (y : binary64) qy, float_value y = Some qy -> (Qabs (qx - q) <= Qabs (qy - q))%Q) /\
  (rmax t <= 2 ^ 16383 -> exactly_representable 64 (Qnum (Qred q)) -> exactly_representable 64 (Zpos (Qden (Qred q))) ->
   exists x qx, to_long_double t v = Ok x /\ float_value x = Some qx /\
     forall (y : binary_float 64 16384) qy, float_value y = Some qy -> (Qabs (qx - q) <= Qabs (qy - q))%Q).
Proof. exact c40_nearest. Qed.
Print Assumptions C40_nearest.

Example C40_example :
  (* 10/-30, both parts exactly representable after reduction *)
  value (mkRaw 10 (-30)) <> None /\
  Qred (inject_Z 10 / inject_Z (-30)) = (-1 # 3)%Q /\
  exactly_representable 24 (-1) /\ exactly_representable 24 3 /\
  match to_float int32 (mkRaw 10 (-30)) with Ok x => bits_of_b32 x | UB _ => 0 end = 0xBEAAAAAB.
Proof.
  split; [discriminate|]. split; [reflexivity|]. split; [exists (-1), 0; repeat split; lia|].
  split; [exists 3, 0; repeat split; lia|]. vm_compute. reflexivity.
Qed.

(** C40: an undefined fraction gives NaN. *)
Theorem C40_undefined_nan : forall t v,
  wf_rep t -> wf_raw t v -> value v = None ->
  (exists x, to_float t v = Ok x /\ is_nan 24 128 x = true) /\
  (exists x, to_double t v = Ok x /\ is_nan 53 1024 x = true) /\
  (exists x, to_long_double t v = Ok x /\ is_nan 64 16384 x = true).
Proof. exact c40_undefined_nan. Qed.
Print Assumptions C40_undefined_nan.

Example C40_undefined_example : value (mkRaw 7 0) = None /\ wf_raw int32 (mkRaw 7 0).
Proof. split; [reflexivity|split; reflexivity]. Qed.

(** C41: float to fraction to float, under every policy. *)
Theorem C41_float_round_trip : forall o t (x : binary32) q,
  signed_rep t -> rbits t <= 128 -> float_value x = Some q ->
  between (Z.max (-126) (25 - rbits t)) (rbits t - 24) q ->
  exists r, to_fraction_float (denote o) t little x = Ok r /\ to_float t r = Ok x.
Proof. exact c41_float_round_trip. Qed.
Print Assumptions C41_float_round_trip.

(** C41: double to fraction to double. *)
Theorem C41_double_round_trip : forall o t (x : binary64) q,
  signed_rep t -> 54 <= rbits t <= 1024 -> float_value x = Some q ->
  between (Z.max (-1022) (54 - rbits t)) (rbits t - 53) q ->
  exists r, to_fraction_double (denote o) t little x = Ok r /\ to_double t r = Ok x.
Proof. exact c41_double_round_trip. Qed.
Print Assumptions C41_double_round_trip.

(** C41: the larger domain of the policies with canonical results. *)
Theorem C41_canonical_round_trip : forall o t q k e,
  output_canonical o = true -> signed_rep t -> significant k e q -> k + Z.abs e <= rbits t - 2 ->
  (forall x : binary32, float_value x = Some q -> rbits t <= 128 -> -126 <= e ->
     exists r, to_fraction_float (denote o) t little x = Ok r /\ to_float t r = Ok x) /\
  (forall x : binary64, float_value x = Some q -> 54 <= rbits t <= 1024 -> -1022 <= e ->
     exists r, to_fraction_double (denote o) t little x = Ok r /\ to_double t r = Ok x).
Proof. exact c41_canonical_round_trip. Qed.
Print Assumptions C41_canonical_round_trip.

Example C41_example :
  (* -1.5 * 2^8 as a double and as a float *)
  float_value (b64_of_bits 0xC078000000000000) = Some (inject_Z (-6755399441055744) * (2 # 1) ^ (-44))%Q /\
  float_value (b32_of_bits 0xC3C00000) = Some (inject_Z (-12582912) * (2 # 1) ^ (-15))%Q /\
  between (Z.max (-1022) (54 - rbits int64)) (rbits int64 - 53) (inject_Z (-6755399441055744) * (2 # 1) ^ (-44)) /\
  between (Z.max (-126) (25 - rbits int64)) (rbits int64 - 24) (inject_Z (-12582912) * (2 # 1) ^ (-15)) /\
  significant 1 8 (inject_Z (-6755399441055744) * (2 # 1) ^ (-44)) /\
  to_fraction_double (denote defaults) int64 little (b64_of_bits 0xC078000000000000) = Ok (mkRaw (-384) 1).
Proof.
  split; [reflexivity|]. split; [reflexivity|]. split; [split; [discriminate|reflexivity]|].
  split; [split; [discriminate|reflexivity]|]. split; [exists 3; split; [lia|reflexivity]|vm_compute; reflexivity].
Qed.

(** C59 is false: 1.5f is 3/2 on a little-endian target and another value on a
    big-endian one. *)
Theorem C59_byte_order_refuted : exists (x : binary32) r s,
  to_fraction_float (denote defaults) int64 little x = Ok r /\
  to_fraction_float (denote defaults) int64 big x = Ok s /\
  same_value (value r) (float_value x) /\ ~ same_value (value s) (float_value x).
Proof. exact c59_byte_order_refuted. Qed.
Print Assumptions C59_byte_order_refuted.

(** C59: the unsigned integer the fields are taken from is the same for both
    byte orders, so that only the offsets differ. *)
Theorem C59_bits_partial : forall e u,
  (0 <= u < 2 ^ 32 -> as_uint_rep e 4 u = u) /\ (0 <= u < 2 ^ 64 -> as_uint_rep e 8 u = u).
Proof. exact c59_bits_partial. Qed.
Print Assumptions C59_bits_partial.

(** C59: a big-endian target converts another number: the one whose sign is the lowest
    bit of the argument, whose exponent the bits above it and whose mantissa the rest. *)
Theorem C59_big_endian : forall p t (x : binary32) (y : binary64),
  to_fraction_float p t big x = to_fraction_float p t little (b32_of_bits (rearranged 23 8 (bits_of_b32 x))) /\
  to_fraction_double p t big y = to_fraction_double p t little (b64_of_bits (rearranged 52 11 (bits_of_b64 y))).
Proof. exact c59_big_endian. Qed.
Print Assumptions C59_big_endian.

Example C59_example : as_uint_rep big 4 0x3FC00000 = 0x3FC00000 /\ rearranged 23 8 0x3FC00000 = 0x001FE000.
Proof. split; reflexivity. Qed.

(** C65: every fraction without the minimum value converts to a float or double
    within four units of 2^-24 or 2^-53, relatively. *)
Theorem C65_relative_error : forall t v q,
  wf_rep t -> wf_raw t v -> Z.abs (num v) <= rmax t -> Z.abs (den v) <= rmax t -> value v = Some q ->
  (rmax t <= 2 ^ 126 -> exists x qx, to_float t v = Ok x /\ float_value x = Some qx /\
     (Qabs (qx - q) <= 4 * (2 # 1) ^ (-24) * Qabs q)%Q) /\
  (rmax t <= 2 ^ 1022 -> exists x qx, to_double t v = Ok x /\ float_value x = Some qx /\
     (Qabs (qx - q) <= 4 * (2 # 1) ^ (-53) * Qabs q)%Q) /\
  (rmax t <= 2 ^ 16382 -> exists x qx, to_long_double t v = Ok x /\ float_value x = Some qx /\
     (Qabs (qx - q) <= 4 * (2 # 1) ^ (-64) * Qabs q)%Q).
Proof. exact c65_relative_error. Qed.
Print Assumptions C65_relative_error.

Example C65_example :
  rmax int64 <= 2 ^ 126 /\ value (mkRaw 9223372036854775807 9223372036854775805) <> None /\
  match to_float int64 (mkRaw 9223372036854775807 9223372036854775805) with Ok x => bits_of_b32 x | UB _ => 0 end
    = 0x3F800000.
Proof. split; [discriminate|]. split; [discriminate|]. vm_compute. reflexivity. Qed.

(** C65: the exclusion is needed. *)
Theorem C65_minimum_refuted : exists v,
  wf_raw int32 v /\ value v <> None /\ to_float int32 v = UB LibPrecond.
Proof. exact c65_minimum_refuted. Qed.
Print Assumptions C65_minimum_refuted.
