(** Property theorems: absolute value, rounding, redenomination, powers.

    Each is closed by the lemma of the same name in Fmath_claims.v. *)

From Coq Require Import ZArith QArith Qabs Qpower Bool Lia Lqa.
From Coq Require Import List.
Import ListNotations.
From Verif Require Import Machine Raw Ops Spec Fraction Fraction_spec Fmath Fmath_spec.
From Verif Require Import Machine_proofs Value_proofs Ops_proofs Total_proofs Cmp_proofs Order_proofs Algebra_proofs Fraction_proofs Fmath_proofs Fmath2_proofs.
Open Scope Z_scope.
From Verif Require Import Fmath_claims.

(** C26 *)
Theorem C26_abs_exact : forall o t v r x,
  wf_rep t -> rsigned t = true -> wf_raw t v -> value v = Some x ->
  f_abs (denote o) t v = Ok r ->
  exists y, value r = Some y /\ (y == Qabs x)%Q /\ (0 <= y)%Q.
Proof. exact c26_abs_exact. Qed.
Print Assumptions C26_abs_exact.

(** C26: it can only go wrong on the least integer. *)
Theorem C26_abs_total : forall o t v,
  wf_rep t -> rsigned t = true -> wf_raw t v ->
  Z.abs (num v) <= rmax t -> Z.abs (den v) <= rmax t ->
  exists r, f_abs (denote o) t v = Ok r.
Proof. exact c26_abs_total. Qed.
Print Assumptions C26_abs_total.

Example C26_nonvacuous :
  f_abs (denote defaults) int32 (mkRaw (-6) 4) = Ok (mkRaw 3 2) /\
  f_abs (denote Safe) int32 (mkRaw 5 (-3)) = Ok (mkRaw (-5) (-3)) /\
  f_abs (denote Safe) int32 (mkRaw (-2147483648) 5) = UB Overflow.
Proof. repeat split; vm_compute; reflexivity. Qed.

(** C27 *)
Theorem C27_trunc_toward_zero : forall t v k,
  wf_rep t -> wf_raw t v -> f_trunc t v = Ok k ->
  exists q, value v = Some q /\ is_trunc k q.
Proof. exact c27_trunc_toward_zero. Qed.
Print Assumptions C27_trunc_toward_zero.

Theorem C27_trunc_defined_iff : forall t v,
  wf_rep t -> wf_raw t v ->
  ((exists k, f_trunc t v = Ok k) <->
   den v <> 0 /\ ~ (rsigned t = true /\ num v = rmin t /\ den v = -1)).
Proof. exact c27_trunc_defined_iff. Qed.
Print Assumptions C27_trunc_defined_iff.

Example C27_nonvacuous :
  f_trunc int32 (mkRaw (-7) 2) = Ok (-3) /\ f_trunc int32 (mkRaw 7 (-2)) = Ok (-3) /\
  f_trunc int32 (mkRaw (-7) (-2)) = Ok 3 /\ f_trunc int32 (mkRaw (-2147483648) (-1)) = UB Overflow /\
  wf_rep int32 /\ wf_raw int32 (mkRaw (-7) 2).
Proof. repeat split; vm_compute; try reflexivity. discriminate. Qed.

(** C28: floor is right everywhere except on the open interval (-1, 0), where
    it is 0 instead of -1. *)
Theorem C28_floor_partial : forall t v k,
  wf_rep t -> wf_raw t v -> f_floor t v = Ok k ->
  exists q, value v = Some q /\
    (~ tiny_negative q -> is_floor k q) /\ (tiny_negative q -> k = 0).
Proof. exact c28_floor_partial. Qed.
Print Assumptions C28_floor_partial.

Theorem C28_floor_defined_iff : forall t v,
  wf_rep t -> wf_raw t v ->
  ((exists k, f_floor t v = Ok k) <->
   den v <> 0 /\ ~ (rsigned t = true /\ num v = rmin t /\ den v = -1)).
Proof. exact c28_floor_defined_iff. Qed.
Print Assumptions C28_floor_defined_iff.

(** C28: unsigned fractions have no exception. *)
Theorem C28_floor_unsigned : forall t v k,
  wf_rep t -> rsigned t = false -> wf_raw t v -> f_floor t v = Ok k ->
  exists q, value v = Some q /\ is_floor k q.
Proof. exact c28_floor_unsigned. Qed.
Print Assumptions C28_floor_unsigned.

(** C28: floor(-1/2) is 0. *)
Theorem C28_floor_refuted : exists v k q,
  wf_raw int32 v /\ f_floor int32 v = Ok k /\ value v = Some q /\ ~ is_floor k q.
Proof. exact c28_floor_refuted. Qed.
Print Assumptions C28_floor_refuted.

Example C28_nonvacuous :
  f_floor int32 (mkRaw (-7) 2) = Ok (-4) /\ f_floor int32 (mkRaw 7 2) = Ok 3 /\
  f_floor int32 (mkRaw 6 (-2)) = Ok (-3) /\ f_floor uint32 (mkRaw 7 2) = Ok 3 /\
  f_floor int32 (mkRaw (-99) 100) = Ok 0.
Proof. repeat split; vm_compute; reflexivity. Qed.

(** C29: ceil is right everywhere except on (-1, 0), where it is 1 instead of 0. *)
Theorem C29_ceil_partial : forall t v k,
  wf_rep t -> wf_raw t v -> f_ceil t v = Ok k ->
  exists q, value v = Some q /\
    (~ tiny_negative q -> is_ceil k q) /\ (tiny_negative q -> k = 1).
Proof. exact c29_ceil_partial. Qed.
Print Assumptions C29_ceil_partial.

Theorem C29_ceil_defined_iff : forall t v,
  wf_rep t -> wf_raw t v ->
  ((exists k, f_ceil t v = Ok k) <->
   den v <> 0 /\ ~ (rsigned t = true /\ num v = rmin t /\ den v = -1)).
Proof. exact c29_ceil_defined_iff. Qed.
Print Assumptions C29_ceil_defined_iff.

Theorem C29_ceil_unsigned : forall t v k,
  wf_rep t -> rsigned t = false -> wf_raw t v -> f_ceil t v = Ok k ->
  exists q, value v = Some q /\ is_ceil k q.
Proof. exact c29_ceil_unsigned. Qed.
Print Assumptions C29_ceil_unsigned.

(** C29: ceil(-1/2) is 1. *)
Theorem C29_ceil_refuted : exists v k q,
  wf_raw int32 v /\ f_ceil int32 v = Ok k /\ value v = Some q /\ ~ is_ceil k q.
Proof. exact c29_ceil_refuted. Qed.
Print Assumptions C29_ceil_refuted.

Example C29_nonvacuous :
  f_ceil int32 (mkRaw (-7) 2) = Ok (-3) /\ f_ceil int32 (mkRaw 7 2) = Ok 4 /\
  f_ceil int32 (mkRaw 6 (-2)) = Ok (-3) /\ f_ceil uint32 (mkRaw 7 2) = Ok 4 /\
  f_ceil int32 (mkRaw (-99) 100) = Ok 1.
Proof. repeat split; vm_compute; reflexivity. Qed.

(** C30: for a policy built on safe, one that normalises its inputs, or a
    positive denominator, round is right except on (-1, -1/2), where it is 0. *)
Theorem C30_round_partial : forall o t v k,
  wf_rep t -> rsigned t = true -> wf_raw t v ->
  built_on_safe o = true \/ normalises_inputs o = true \/ 0 < den v ->
  f_round (denote o) t v = Ok k ->
  exists q, value v = Some q /\
    (~ below_minus_half q -> is_round k q) /\ (below_minus_half q -> k = 0).
Proof. exact c30_round_partial. Qed.
Print Assumptions C30_round_partial.

Theorem C30_round_total : forall o t v B,
  wf_rep t -> rsigned t = true -> wf_raw t v ->
  built_on_safe o = true \/ normalises_inputs o = true \/ 0 < den v ->
  den v <> 0 -> raw_bounded B v -> 4 * B * B * B * B <= rmax t ->
  exists k, f_round (denote o) t v = Ok k.
Proof. exact c30_round_total. Qed.
Print Assumptions C30_round_total.

(** C30: round(-3/4) is 0, under every named policy. *)
Theorem C30_round_refuted : forall o,
  List.In o [Safe; Fast; safe_reduced_i; safe_reduced_o; safe_reduced_io;
             fast_reduced_i; fast_reduced_o; fast_reduced_io; defaults] ->
  exists v k q, wf_raw int32 v /\ f_round (denote o) int32 v = Ok k /\ value v = Some q /\ ~ is_round k q.
Proof. exact c30_round_refuted. Qed.
Print Assumptions C30_round_refuted.

(** C30: under fast, round((-5)/(-4)) is 2. *)
Theorem C30_fast_round_refuted : exists v k q,
  wf_raw int32 v /\ f_round (denote Fast) int32 v = Ok k /\ value v = Some q /\
  (0 < q)%Q /\ ~ is_round k q.
Proof. exact c30_fast_round_refuted. Qed.
Print Assumptions C30_fast_round_refuted.

Example C30_nonvacuous :
  f_round (denote defaults) int32 (mkRaw 5 2) = Ok 3 /\
  f_round (denote defaults) int32 (mkRaw (-5) 2) = Ok (-2) /\
  f_round (denote Safe) int32 (mkRaw 5 (-4)) = Ok (-1) /\
  f_round (denote Fast) int32 (mkRaw 9 4) = Ok 2 /\
  raw_bounded 152 (mkRaw (-151) 152) /\ 4 * 152 * 152 * 152 * 152 <= rmax int32.
Proof. repeat split; vm_compute; try reflexivity; discriminate. Qed.

(** C31: truncation toward zero has no exception. *)
Theorem C31_trunc_redenominate : forall o t v d r,
  wf_rep t -> rsigned t = true -> wf_raw t v -> in_rep t d = true -> d <> 0 ->
  f_redenominate (denote o) t v d round_trunc = Ok r ->
  exists q v' k, value v = Some q /\ value r = Some v' /\ den r = d /\
    is_over v' k (Z.abs d) /\ is_trunc k (q * inject_Z (Z.abs d)).
Proof. exact c31_trunc_redenominate. Qed.
Print Assumptions C31_trunc_redenominate.

(** C31: the other modes are right except when value(f) * |d| lies in (-1, 0)
    (for round: value(f) * d in (-1, -1/2)). *)
Theorem C31_floor_redenominate_partial : forall o t v d r,
  wf_rep t -> rsigned t = true -> wf_raw t v -> in_rep t d = true -> d <> 0 ->
  f_redenominate (denote o) t v d round_floor = Ok r ->
  exists q v' k, value v = Some q /\ value r = Some v' /\ den r = d /\
    is_over v' k (Z.abs d) /\
    (tiny_negative (q * inject_Z (Z.abs d)) -> k = 0) /\
    (~ tiny_negative (q * inject_Z (Z.abs d)) -> is_floor k (q * inject_Z (Z.abs d))).
Proof. exact c31_floor_redenominate_partial. Qed.
Print Assumptions C31_floor_redenominate_partial.

Theorem C31_ceil_redenominate_partial : forall o t v d r,
  wf_rep t -> rsigned t = true -> wf_raw t v -> in_rep t d = true -> d <> 0 ->
  f_redenominate (denote o) t v d round_ceil = Ok r ->
  exists q v' k, value v = Some q /\ value r = Some v' /\ den r = d /\
    is_over v' k (Z.abs d) /\
    (tiny_negative (q * inject_Z (Z.abs d)) -> k = 1) /\
    (~ tiny_negative (q * inject_Z (Z.abs d)) -> is_ceil k (q * inject_Z (Z.abs d))).
Proof. exact c31_ceil_redenominate_partial. Qed.
Print Assumptions C31_ceil_redenominate_partial.

Theorem C31_round_redenominate_partial : forall o t v d r,
  wf_rep t -> rsigned t = true -> wf_raw t v ->
  built_on_safe o = true \/ normalises_inputs o = true \/ 0 < den v ->
  in_rep t d = true -> d <> 0 ->
  f_redenominate (denote o) t v d round_round = Ok r ->
  exists q v' k, value v = Some q /\ value r = Some v' /\ den r = d /\
    is_over v' k d /\
    (below_minus_half (q * inject_Z d) -> k = 0) /\
    (~ below_minus_half (q * inject_Z d) -> is_round k (q * inject_Z d)).
Proof. exact c31_round_redenominate_partial. Qed.
Print Assumptions C31_round_redenominate_partial.

(** C31: rounding -1/8 up to quarters gives 1/4, and down gives 0. *)
Theorem C31_redenominate_refuted :
  f_redenominate (denote defaults) int32 (mkRaw (-1) 8) 4 round_ceil = Ok (mkRaw 1 4) /\
  f_redenominate (denote defaults) int32 (mkRaw (-1) 8) 4 round_floor = Ok (mkRaw 0 4) /\
  f_redenominate (denote defaults) int32 (mkRaw (-3) 16) 4 round_round = Ok (mkRaw 0 4).
Proof. exact c31_redenominate_refuted. Qed.
Print Assumptions C31_redenominate_refuted.

Example C31_nonvacuous :
  f_redenominate (denote defaults) int32 (mkRaw 5 7) 12 round_trunc = Ok (mkRaw 8 12) /\
  f_redenominate (denote defaults) int32 (mkRaw 5 7) (-12) round_ceil = Ok (mkRaw (-9) (-12)) /\
  f_redenominate (denote Safe) int32 (mkRaw (-5) 7) 12 round_floor = Ok (mkRaw (-9) 12) /\
  f_redenominate (denote Fast) int32 (mkRaw 5 7) 12 round_round = Ok (mkRaw 9 12).
Proof. repeat split; vm_compute; reflexivity. Qed.

(** C32 *)
Theorem C32_pow_exact : forall t b e r,
  wf_rep t -> rsigned t = true -> in_rep t b = true -> -2147483647 <= e <= 2147483647 ->
  f_pow t b e = Ok r ->
  (0 <= e \/ b <> 0 -> exists v, value r = Some v /\ (v == inject_Z b ^ e)%Q) /\
  (e < 0 -> b = 0 -> value r = None).
Proof. exact c32_pow_exact. Qed.
Print Assumptions C32_pow_exact.

(** C32: pow is free of undefined behaviour exactly when b^|e| fits. *)
Theorem C32_pow_defined_iff : forall t b e,
  wf_rep t -> rsigned t = true -> in_rep t b = true -> -2147483647 <= e <= 2147483647 ->
  ((exists r, f_pow t b e = Ok r) <-> in_rep t (b ^ Z.abs e) = true).
Proof. exact c32_pow_defined_iff. Qed.
Print Assumptions C32_pow_defined_iff.

(** C32: for unsigned bases the power is taken modulo 2^bits, never undefined. *)
Theorem C32_pow_unsigned : forall t b e,
  wf_rep t -> rsigned t = false -> in_rep t b = true -> 0 <= e <= 2147483647 ->
  f_pow t b e = Ok (mkRaw ((b ^ e) mod 2 ^ rbits t) 1).
Proof. exact c32_pow_unsigned. Qed.
Print Assumptions C32_pow_unsigned.

Theorem C32_pow2_exact : forall t e,
  wf_rep t -> Z.abs e < (if rsigned t then rbits t - 1 else rbits t) -> Z.abs e <= 2147483647 ->
  exists r v, f_pow2 t e = Ok r /\ value r = Some v /\ (v == (2 # 1) ^ e)%Q.
Proof. exact c32_pow2_exact. Qed.
Print Assumptions C32_pow2_exact.

Theorem C32_pow2_out_of_range : forall t e,
  wf_rep t -> rbits t <= Z.abs e <= 2147483647 -> f_pow2 t e = UB BadShift.
Proof. exact c32_pow2_out_of_range. Qed.
Print Assumptions C32_pow2_out_of_range.

(** C32: the least int exponent cannot be negated, whatever the base. *)
Theorem C32_int_min_exponent : forall t b,
  f_pow t b (-2147483648) = UB Overflow /\ f_pow2 t (-2147483648) = UB Overflow.
Proof. exact c32_int_min_exponent. Qed.
Print Assumptions C32_int_min_exponent.

(** C32: at the sign bit pow2 has the wrong sign. *)
Theorem C32_pow2_sign_bit_refuted : forall t,
  wf_rep t -> rsigned t = true -> rbits t <= 2147483648 ->
  f_pow2 t (rbits t - 1) = Ok (mkRaw (- 2 ^ (rbits t - 1)) 1).
Proof. exact c32_pow2_sign_bit_refuted. Qed.
Print Assumptions C32_pow2_sign_bit_refuted.

Example C32_nonvacuous :
  f_pow int32 (-3) 5 = Ok (mkRaw (-243) 1) /\ f_pow int32 (-3) (-5) = Ok (mkRaw 1 (-243)) /\
  f_pow int32 (-2) 31 = Ok (mkRaw (-2147483648) 1) /\ f_pow int32 2 31 = UB Overflow /\
  f_pow int32 0 (-1) = Ok (mkRaw 1 0) /\ f_pow2 int32 (-30) = Ok (mkRaw 1 1073741824).
Proof. repeat split; vm_compute; reflexivity. Qed.
