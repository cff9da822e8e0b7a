(** Property theorems: queries and reduction.

    Each is closed by the lemma of the same name in Raw_claims.v. *)

From Coq Require Import ZArith QArith Qabs Bool Lia.
From Verif Require Import Machine Raw Ops Spec.
From Verif Require Import Machine_proofs Value_proofs Ops_proofs Total_proofs Cmp_proofs Order_proofs Laws_proofs.
Open Scope Z_scope.
From Verif Require Import Raw_claims.

(** C19 *)
Theorem C19_reduce_value_and_form : forall t v m r,
  wf_rep t -> wf_raw t v -> reduce t v m = Ok r ->
  wf_raw t r /\ same_value (value r) (value v) /\
  (value v = None -> r = mkRaw 0 0) /\
  (value v <> None -> Z.gcd (num r) (den r) = 1 /\
     match m with
     | normalize_signs_mode => 0 < den r
     | ignore_signs_mode => Z.sgn (den r) = Z.sgn (den v) /\ Z.sgn (num r) = Z.sgn (num v)
     end).
Proof. exact c19_reduce_value_and_form. Qed.
Print Assumptions C19_reduce_value_and_form.

Theorem C19_reduce_idempotent : forall t v m r,
  wf_rep t -> wf_raw t v -> reduce t v m = Ok r -> reduce t r m = Ok r.
Proof. exact c19_reduce_idempotent. Qed.
Print Assumptions C19_reduce_idempotent.

Theorem C19_reduce_decides_equality : forall t a b ra rb,
  wf_rep t -> wf_raw t a -> wf_raw t b ->
  reduce t a normalize_signs_mode = Ok ra -> reduce t b normalize_signs_mode = Ok rb ->
  (same_value (value a) (value b) <-> ra = rb).
Proof. exact c19_reduce_decides_equality. Qed.
Print Assumptions C19_reduce_decides_equality.

(** C19: no undefined behaviour unless a part is the minimum of a signed
    type. *)
Theorem C19_reduce_total : forall t v m,
  wf_rep t -> wf_raw t v -> raw_bounded (rmax t) v -> exists r, reduce t v m = Ok r.
Proof. exact c19_reduce_total. Qed.
Print Assumptions C19_reduce_total.

Theorem C19_reduce_minimum_refuted : exists v, value v <> None /\ wf_raw int32 v /\
  reduce int32 v normalize_signs_mode = UB LibPrecond /\ reduce int32 v ignore_signs_mode = UB LibPrecond.
Proof. exact c19_reduce_minimum_refuted. Qed.
Print Assumptions C19_reduce_minimum_refuted.

Example C19_nonvacuous :
  reduce int32 (mkRaw 6 (-8)) normalize_signs_mode = Ok (mkRaw (-3) 4) /\
  reduce int32 (mkRaw 6 (-8)) ignore_signs_mode = Ok (mkRaw 3 (-4)) /\
  reduce int32 (mkRaw 0 (-8)) normalize_signs_mode = Ok (mkRaw 0 1) /\
  reduce uint64 (mkRaw 7 0) normalize_signs_mode = Ok (mkRaw 0 0).
Proof. repeat split; vm_compute; reflexivity. Qed.

(** C20: true for positive denominators; and for every fraction when signs are
    ignored. *)
Theorem C20_is_reduced_partial : forall t v b r,
  wf_rep t -> wf_raw t v -> 0 < den v ->
  is_reduced t v = Ok b -> reduce t v normalize_signs_mode = Ok r -> (b = true <-> r = v).
Proof. exact c20_is_reduced_partial. Qed.
Print Assumptions C20_is_reduced_partial.

Theorem C20_is_reduced_ignore_signs : forall t v b r,
  wf_rep t -> wf_raw t v ->
  is_reduced_ignore_signs t v = Ok b -> reduce t v ignore_signs_mode = Ok r ->
  (b = true <-> value v <> None /\ r = v).
Proof. exact c20_is_reduced_ignore_signs. Qed.
Print Assumptions C20_is_reduced_ignore_signs.

(** C20: what is_reduced decides for every fraction. *)
Theorem C20_is_reduced_decides : forall t v b,
  is_reduced t v = Ok b ->
  (b = true <-> value v <> None /\ Z.gcd (num v) (den v) = 1 /\ (0 < num v \/ 0 < den v)).
Proof. exact c20_is_reduced_decides. Qed.
Print Assumptions C20_is_reduced_decides.

(** C20: the claim is false for a positive numerator over a negative
    denominator. *)
Theorem C20_is_reduced_refuted : exists v r, wf_raw int32 v /\
  is_reduced int32 v = Ok true /\ reduce int32 v normalize_signs_mode = Ok r /\ r <> v.
Proof. exact c20_is_reduced_refuted. Qed.
Print Assumptions C20_is_reduced_refuted.

Example C20_nonvacuous :
  is_reduced int32 (mkRaw (-3) 4) = Ok true /\ is_reduced int32 (mkRaw (-3) (-4)) = Ok false /\
  is_reduced int32 (mkRaw 6 8) = Ok false /\ is_reduced_ignore_signs int32 (mkRaw (-3) (-4)) = Ok true.
Proof. repeat split; vm_compute; reflexivity. Qed.

(** C21 *)
Theorem C21_normalize_signs : forall t v r,
  wf_rep t -> rsigned t = true -> wf_raw t v -> normalize_signs t v = Ok r ->
  same_value (value r) (value v) /\ 0 <= den r /\
  Z.abs (num r) = Z.abs (num v) /\ Z.abs (den r) = Z.abs (den v).
Proof. exact c21_normalize_signs. Qed.
Print Assumptions C21_normalize_signs.

Theorem C21_normalize_signs_total : forall t v,
  wf_rep t -> rsigned t = true -> raw_bounded (rmax t) v -> exists r, normalize_signs t v = Ok r.
Proof. exact c21_normalize_signs_total. Qed.
Print Assumptions C21_normalize_signs_total.

Example C21_nonvacuous :
  normalize_signs int32 (mkRaw 4 (-6)) = Ok (mkRaw (-4) 6) /\
  normalize_signs int32 (mkRaw (-4) 6) = Ok (mkRaw (-4) 6) /\
  normalize_signs int32 (mkRaw (-2147483648) (-1)) = UB Overflow.
Proof. repeat split; vm_compute; reflexivity. Qed.

(** C22 *)
Theorem C22_sign_queries : forall v,
  (is_positive v = true <-> value_is (fun q => 0 < q)%Q v) /\
  (is_negative v = true <-> value_is (fun q => q < 0)%Q v) /\
  (is_zero v = true <-> value_is (fun q => q == 0)%Q v) /\
  (is_non_negative v = true <-> value_is (fun q => 0 <= q)%Q v) /\
  (is_non_positive v = true <-> value_is (fun q => q <= 0)%Q v) /\
  (is_defined v = true <-> value v <> None) /\
  (is_undefined v = true <-> value v = None).
Proof. exact c22_sign_queries. Qed.
Print Assumptions C22_sign_queries.

Theorem C22_exactly_one : forall v,
  (Nat.add (Nat.add (Nat.b2n (is_positive v)) (Nat.b2n (is_zero v)))
           (Nat.add (Nat.b2n (is_negative v)) (Nat.b2n (is_undefined v))) = 1)%nat.
Proof. exact c22_exactly_one. Qed.
Print Assumptions C22_exactly_one.

Example C22_nonvacuous :
  is_positive (mkRaw (-1) (-2)) = true /\ is_negative (mkRaw 1 (-2)) = true /\
  is_zero (mkRaw 0 (-3)) = true /\ is_undefined (mkRaw 5 0) = true /\ is_positive (mkRaw 5 0) = false.
Proof. repeat split; vm_compute; reflexivity. Qed.

(** C23 *)
Theorem C23_is_integer : forall t v b, is_integer t v = Ok b ->
  (b = true <-> value_is (fun q => exists k, q == inject_Z k)%Q v).
Proof. exact c23_is_integer. Qed.
Print Assumptions C23_is_integer.

Theorem C23_is_unit_fraction : forall t v b, is_unit_fraction t v = Ok b ->
  (b = true <-> value_is (fun q => exists k, k <> 0%Z /\ q == 1 / inject_Z k)%Q v).
Proof. exact c23_is_unit_fraction. Qed.
Print Assumptions C23_is_unit_fraction.

Theorem C23_is_proper : forall t v b, wf_rep t -> wf_raw t v -> value v <> None -> is_proper t v = Ok b ->
  (b = true <-> value_is (fun q => Qabs q < 1)%Q v).
Proof. exact c23_is_proper. Qed.
Print Assumptions C23_is_proper.

Theorem C23_is_improper : forall t v b, wf_rep t -> wf_raw t v -> value v <> None -> is_improper t v = Ok b ->
  (b = true <-> value_is (fun q => 1 <= Qabs q)%Q v).
Proof. exact c23_is_improper. Qed.
Print Assumptions C23_is_improper.

(** C23: is_integer is undefined behaviour for exactly one fraction of a signed
    type, min/-1. *)
Theorem C23_is_integer_total : forall t v, wf_rep t -> wf_raw t v ->
  (exists b, is_integer t v = Ok b) <-> ~ (rsigned t = true /\ num v = rmin t /\ den v = -1).
Proof. exact c23_is_integer_total. Qed.
Print Assumptions C23_is_integer_total.

Example C23_nonvacuous :
  is_integer int32 (mkRaw (-6) 3) = Ok true /\ is_integer int32 (mkRaw 7 2) = Ok false /\
  is_unit_fraction int32 (mkRaw 2 (-8)) = Ok true /\ is_unit_fraction int32 (mkRaw 0 4) = Ok false /\
  is_proper int32 (mkRaw (-3) 4) = Ok true /\ is_proper int32 (mkRaw 4 (-4)) = Ok false /\
  is_integer int32 (mkRaw (-2147483648) (-1)) = UB Overflow.
Proof. repeat split; vm_compute; reflexivity. Qed.

(** C24 *)
Theorem C24_identical_iff : forall a b,
  (are_identical a b = true <-> a = b) /\ are_different a b = negb (are_identical a b).
Proof. exact c24_identical_iff. Qed.
Print Assumptions C24_identical_iff.

Theorem C24_identical_equal : forall o t a b e,
  wf_rep t -> rsigned t = true -> wf_raw t a -> value a <> None ->
  are_identical a b = true -> p_cmp (denote o) t Eq (RR a b) = Ok e -> e = true.
Proof. exact c24_identical_equal. Qed.
Print Assumptions C24_identical_equal.

Theorem C24_reduced_equal_identical : forall o t a b ra rb,
  wf_rep t -> rsigned t = true -> wf_raw t a -> wf_raw t b ->
  reduce t a normalize_signs_mode = Ok ra -> reduce t b normalize_signs_mode = Ok rb ->
  p_cmp (denote o) t Eq (RR ra rb) = Ok true -> are_identical ra rb = true.
Proof. exact c24_reduced_equal_identical. Qed.
Print Assumptions C24_reduced_equal_identical.

Example C24_nonvacuous :
  are_identical (mkRaw 1 2) (mkRaw 1 2) = true /\ are_identical (mkRaw 1 2) (mkRaw 2 4) = false /\
  p_cmp (denote defaults) int32 Eq (RR (mkRaw 1 2) (mkRaw 2 4)) = Ok true /\
  reduce int32 (mkRaw 2 4) normalize_signs_mode = Ok (mkRaw 1 2).
Proof. repeat split; vm_compute; reflexivity. Qed.

(** C25 *)
Theorem C25_reciprocal_involutive : forall v, reciprocal (reciprocal v) = v.
Proof. exact c25_reciprocal_involutive. Qed.
Print Assumptions C25_reciprocal_involutive.

Theorem C25_reciprocal_inverts : forall v q, value v = Some q ->
  (~ (q == 0)%Q -> exists p, value (reciprocal v) = Some p /\ (p == / q)%Q) /\
  ((q == 0)%Q -> value (reciprocal v) = None).
Proof. exact c25_reciprocal_inverts. Qed.
Print Assumptions C25_reciprocal_inverts.

Example C25_nonvacuous :
  reciprocal (mkRaw (-3) 4) = mkRaw 4 (-3) /\ value (mkRaw (-3) 4) = Some ((-3) / 4)%Q.
Proof. split; reflexivity. Qed.
