(** Property theorems: the laws of powers.

    Each is closed by the lemma of the same name in Pow_claims.v. *)

From Coq Require Import ZArith QArith Qpower Bool Lia Lqa.
From Verif Require Import Machine Raw Ops Fraction Fmath Spec Fmath_spec Mixed_spec Defined_spec.
From Verif Require Import Machine_proofs Value_proofs Ops_proofs Algebra_proofs Fmath2_proofs Float_proofs Defined_proofs Cmp_proofs.
From Verif Require Import Arith_claims Cmp_claims Fmath_claims Defined_claims.
Open Scope Z_scope.
From Verif Require Import Pow_claims.

(** C120: the parts of a power: a whole number for exponents from zero on, one over
    it for the others. *)
Theorem C120_parts : forall t b e r, wf_rep t -> rsigned t = true -> in_rep t b = true ->
  -2147483647 <= e <= 2147483647 -> f_pow t b e = Ok r ->
  (0 <= e -> num r = b ^ e /\ den r = 1) /\ (e < 0 -> num r = 1 /\ den r = b ^ (- e)).
Proof. exact c120_parts. Qed.
Print Assumptions C120_parts.

(** C120: it is in lowest terms with a positive denominator unless the exponent is
    negative and the base is zero, or negative with an odd exponent. *)
Theorem C120_lowest_terms : forall t b e r, wf_rep t -> rsigned t = true -> in_rep t b = true ->
  -2147483647 <= e <= 2147483647 -> f_pow t b e = Ok r ->
  (canonical r <-> 0 <= e \/ 0 < b \/ b < 0 /\ Z.even e = true).
Proof. exact c120_lowest_terms. Qed.
Print Assumptions C120_lowest_terms.

(** C120: the power for the opposite exponent is the reciprocal, part by part; one is
    defined exactly when the other is. *)
Theorem C120_reciprocal : forall t b e, wf_rep t -> rsigned t = true -> in_rep t b = true ->
  -2147483647 <= e <= 2147483647 -> e <> 0 ->
  f_pow t b (- e) = match f_pow t b e with Ok r => Ok (reciprocal r) | UB u => UB u end.
Proof. exact c120_reciprocal. Qed.
Print Assumptions C120_reciprocal.

(** C120: pow2 is pow with base two as long as the power is positive. *)
Theorem C120_pow2 : forall t e, signed_rep t -> Z.abs e <= rbits t - 2 -> rbits t <= 2 ^ 31 ->
  f_pow2 t e = f_pow t 2 e.
Proof. exact c120_pow2. Qed.
Print Assumptions C120_pow2.

(** C120: under every policy the product of two powers, if it is returned, has the
    value of the power for the sum of the exponents. *)
Theorem C120_product : forall o t b m n x y z w, wf_rep t -> rsigned t = true -> in_rep t b = true -> b <> 0 ->
  -2147483647 <= m <= 2147483647 -> -2147483647 <= n <= 2147483647 -> -2147483647 <= m + n <= 2147483647 ->
  f_pow t b m = Ok x -> f_pow t b n = Ok y -> wf_raw t x -> wf_raw t y ->
  p_arith (denote o) t Multiplies (RR x y) = Ok z -> f_pow t b (m + n) = Ok w ->
  same_value (value z) (value w).
Proof. exact c120_product. Qed.
Print Assumptions C120_product.

(** C120: what pow returns is a fraction of the representation, so the condition on
    ranges above is always met. *)
Theorem C120_in_range : forall t b e r, wf_rep t -> rsigned t = true -> in_rep t b = true ->
  -2147483647 <= e <= 2147483647 -> f_pow t b e = Ok r -> wf_raw t r.
Proof. exact c120_in_range. Qed.
Print Assumptions C120_in_range.

(** C120: under policies that return lowest terms it is that power bit for bit, if the
    base is positive. *)
Theorem C120_product_identical : forall o t b m n x y z w, wf_rep t -> rsigned t = true -> in_rep t b = true -> 0 < b ->
  output_canonical o = true ->
  -2147483647 <= m <= 2147483647 -> -2147483647 <= n <= 2147483647 -> -2147483647 <= m + n <= 2147483647 ->
  f_pow t b m = Ok x -> f_pow t b n = Ok y ->
  p_arith (denote o) t Multiplies (RR x y) = Ok z -> f_pow t b (m + n) = Ok w -> z = w.
Proof. exact c120_product_identical. Qed.
Print Assumptions C120_product_identical.

(** C120: and under the default policy it is returned exactly when that power is,
    except that exponents of opposite signs never fail. *)
Theorem C120_product_defined : forall t b m n x y, signed_rep t -> in_rep t b = true -> 0 < b ->
  -2147483647 <= m <= 2147483647 -> -2147483647 <= n <= 2147483647 -> -2147483647 <= m + n <= 2147483647 ->
  f_pow t b m = Ok x -> f_pow t b n = Ok y ->
  ((exists z, p_arith (denote defaults) t Multiplies (RR x y) = Ok z) <->
   m * n <= 0 \/ exists w, f_pow t b (m + n) = Ok w).
Proof. exact c120_product_defined. Qed.
Print Assumptions C120_product_defined.

(** C120: powers of a base above one are ordered as their exponents, as far as a
    policy answers. *)
Theorem C120_monotone : forall o t b m n x y c, wf_rep t -> rsigned t = true -> in_rep t b = true -> 1 < b ->
  -2147483647 <= m <= 2147483647 -> -2147483647 <= n <= 2147483647 ->
  f_pow t b m = Ok x -> f_pow t b n = Ok y -> p_cmp (denote o) t Lt (RR x y) = Ok c ->
  (c = true <-> m < n).
Proof. exact c120_monotone. Qed.
Print Assumptions C120_monotone.

(** C120: a negative base with a negative odd exponent gives one over a negative number,
    which under the default policy is never less than zero. *)
Theorem C120_negative_base : forall t b e r c d, wf_rep t -> rsigned t = true -> in_rep t b = true -> b < 0 ->
  -2147483647 <= e < 0 -> Z.odd e = true -> f_pow t b e = Ok r ->
  (exists q, value r = Some q /\ (q < 0)%Q) /\
  (p_cmp (denote defaults) t Lt (RI r 0) = Ok c -> p_cmp (denote defaults) t Lt (IR 0 r) = Ok d -> c = false /\ d = true).
Proof. exact c120_negative_base. Qed.
Print Assumptions C120_negative_base.

(** C120: for example pow(-2, -1) < 0 is false. *)
Theorem C120_refuted : exists b e r, f_pow int32 b e = Ok r /\ b < 0 /\ Z.odd e = true /\
  p_cmp (denote defaults) int32 Lt (RI r 0) = Ok false /\ p_cmp (denote defaults) int32 Gt (RI r 0) = Ok true.
Proof. exact c120_refuted. Qed.
Print Assumptions C120_refuted.

Example C120_nonvacuous :
  f_pow int32 3 (-4) = Ok (mkRaw 1 81) /\ f_pow int32 3 6 = Ok (mkRaw 729 1) /\ f_pow int32 3 2 = Ok (mkRaw 9 1) /\
  p_arith (denote defaults) int32 Multiplies (RR (mkRaw 1 81) (mkRaw 729 1)) = Ok (mkRaw 9 1) /\
  p_cmp (denote defaults) int32 Lt (RR (mkRaw 1 81) (mkRaw 9 1)) = Ok true /\
  f_pow int32 3 20 = UB Overflow /\ f_pow int32 3 10 = Ok (mkRaw 59049 1) /\
  p_arith (denote defaults) int32 Multiplies (RR (mkRaw 59049 1) (mkRaw 59049 1)) = UB Overflow /\
  f_pow int32 (-2) (-3) = Ok (mkRaw 1 (-8)) /\ f_pow2 int32 (-3) = Ok (mkRaw 1 8).
Proof.
  split; [vm_compute; reflexivity|]. split; [vm_compute; reflexivity|]. split; [vm_compute; reflexivity|].
  split; [vm_compute; reflexivity|]. split; [vm_compute; reflexivity|]. split; [vm_compute; reflexivity|].
  split; [vm_compute; reflexivity|]. split; [vm_compute; reflexivity|]. split; vm_compute; reflexivity.
Qed.
