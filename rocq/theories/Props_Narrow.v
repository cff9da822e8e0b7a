(** Property theorems: fractions of types narrower than int.

    Each is closed by the lemma of the same name in Narrow_claims.v. *)

From Coq Require Import ZArith QArith Qabs Bool Lia List.
From Verif Require Import Machine Raw Ops Spec Fraction Fraction_spec Fmath Fmath_spec Tight_spec Mixed_spec Narrow Narrow_spec.
From Verif Require Import Machine_proofs Value_proofs Ops_proofs Cmp_proofs Order_proofs Fraction_proofs Fmath_proofs Fmath2_proofs Narrow_proofs.
From Verif Require Import Raw_claims Tight_claims.
Import ListNotations.
Open Scope Z_scope.
From Verif Require Import Narrow_claims.

(** C108: an operator between two types, either of them narrower than int, computes in
    the common type, with the exact result. *)
Theorem C108_mixed_exact : forall o tl tr op a r x y, 8 <= rbits tl -> 8 <= rbits tr -> wf_args2 tl tr a ->
  rsigned (common_type tl tr) = true -> left_value a = Some x -> right_value a = Some y ->
  nw_arith o tl tr op a = Some (Ok r) ->
  wf_raw (common_type tl tr) r /\ same_value (value r) (exact op x y).
Proof. exact c108_mixed_exact. Qed.
Print Assumptions C108_mixed_exact.

(** C108: comparisons likewise. *)
Theorem C108_mixed_compare : forall o tl tr op a b, 8 <= rbits tl -> 8 <= rbits tr -> 32 <= rbits (common_type tl tr) -> wf_args2 tl tr a ->
  rsigned (common_type tl tr) = true -> is_eq_op op = true \/ order_domain o a ->
  nw_cmp o tl tr op a = Some (Ok b) -> b = exact_cmp_opt op (left_value a) (right_value a).
Proof. exact c108_mixed_compare. Qed.
Print Assumptions C108_mixed_compare.

(** C108: between two different types that are narrow enough together (any of the 8-bit
    types with any of the 16-bit types, and the two 8-bit types) nothing overflows,
    under any policy. *)
Theorem C108_mixed_total : forall o tl tr op a x y, narrow tl -> narrow tr -> tl <> tr -> rbits tl + rbits tr <= 30 -> wf_args2 tl tr a ->
  left_value a = Some x -> right_value a = Some y -> (op = Modulus -> ~ (y == 0)%Q) ->
  exists r, nw_arith o tl tr op a = Some (Ok r) /\ wf_raw int32 r /\ same_value (value r) (exact op x y).
Proof. exact c108_mixed_total. Qed.
Print Assumptions C108_mixed_total.

Example c108_mixed_case :
  let int8 := mkRep true 8 in let uint16 := mkRep false 16 in
  common_type int8 uint16 = int32 /\ common_type int8 uint32 = uint32 /\ common_type int8 int8 = int8 /\
  nw_arith defaults int8 uint16 Plus (RR (mkRaw (-128) 127) (mkRaw 65535 65534)) = Some (Ok (mkRaw (-65407) 8322818)) /\
  nw_arith Fast int8 int32 Multiplies (RR (mkRaw 3 4) (mkRaw 2 3)) = Some (Ok (mkRaw 6 12)) /\
  nw_arith defaults int8 int8 Plus (RR (mkRaw 3 4) (mkRaw 2 3)) = None.
Proof. vm_compute. repeat split. Qed.

(** C108: comparisons too. *)
Theorem C108_mixed_compare_total : forall o tl tr op a, narrow tl -> narrow tr -> tl <> tr -> rbits tl + rbits tr <= 30 -> wf_args2 tl tr a ->
  is_eq_op op = true \/ order_domain o a ->
  nw_cmp o tl tr op a = Some (Ok (exact_cmp_opt op (left_value a) (right_value a))).
Proof. exact c108_mixed_compare_total. Qed.
Print Assumptions C108_mixed_compare_total.

(** C108: short and unsigned short together are too wide. *)
Theorem C108_mixed_shorts_refuted : exists l r, wf_raw (mkRep true 16) l /\ wf_raw (mkRep false 16) r /\ value_is (fun q => q == 1)%Q l /\ value_is (fun q => q == 1)%Q r /\
  nw_arith Fast (mkRep true 16) (mkRep false 16) Plus (RR l r) = Some (UB Overflow) /\
  nw_arith Safe (mkRep true 16) (mkRep false 16) Plus (RR l r) = Some (UB Overflow).
Proof. exact c108_mixed_shorts_refuted. Qed.
Print Assumptions C108_mixed_shorts_refuted.

(** C108: comparisons of two fractions of one narrow type under policies built on fast
    are always defined, for types no wider than short; the order is right for positive
    denominators. *)
Theorem C108_fast_total : forall o t op a, narrow t -> short_enough t -> no_input_layers o -> built_on_safe o = false -> wf_args t a ->
  is_eq_op op = true \/ positive_dens a ->
  nw_cmp o t t op a = Some (Ok (exact_cmp_opt op (left_value a) (right_value a))).
Proof. exact c108_fast_total. Qed.
Print Assumptions C108_fast_total.

(** C108: unsigned short is promoted to int, so its products overflow. *)
Theorem C108_unsigned_short_refuted :
  nw_cmp Fast (mkRep false 16) (mkRep false 16) Lt (RR (mkRaw 65535 1) (mkRaw 1 65535)) = Some (UB Overflow).
Proof. exact c108_unsigned_short_refuted. Qed.
Print Assumptions C108_unsigned_short_refuted.

(** C108: under policies built on safe exactly when the least common denominator fits in
    the narrow type. *)
Theorem C108_safe_exactly : forall o t op l r b, narrow t -> short_enough t -> no_input_layers o -> built_on_safe o = true ->
  wf_raw t l -> wf_raw t r ->
  nw_cmp o t t op (RR l r) = Some (Ok b) <->
  (value l = None \/ value r = None \/ lcm_fits t l r) /\ b = exact_cmp_opt op (value l) (value r).
Proof. exact c108_safe_exactly. Qed.
Print Assumptions C108_safe_exactly.

(** C108: and with an integer of the same type always. *)
Theorem C108_safe_integer : forall o t op a, narrow t -> short_enough t -> no_input_layers o -> built_on_safe o = true -> wf_args t a ->
  (forall l r, a <> RR l r) -> is_eq_op op = true \/ positive_dens a ->
  nw_cmp o t t op a = Some (Ok (exact_cmp_opt op (left_value a) (right_value a))).
Proof. exact c108_safe_integer. Qed.
Print Assumptions C108_safe_integer.

Example c108_same_cases :
  let int16 := mkRep true 16 in
  nw_cmp Safe int16 int16 Lt (RR (mkRaw 1 (-300)) (mkRaw 1 200)) = Some (Ok true) /\
  nw_cmp Safe int16 int16 Lt (RR (mkRaw 1 257) (mkRaw 1 256)) = Some (UB LibPrecond) /\
  nw_cmp Fast int16 int16 Lt (RR (mkRaw 1 257) (mkRaw 1 256)) = Some (Ok true) /\
  nw_cmp Fast int16 int16 Eq (RI (mkRaw (-32768) (-32768)) 1) = Some (Ok true) /\
  nw_cmp safe_reduced_o int16 int16 Ge (RI (mkRaw 7 2) 3) = Some (Ok true) /\
  nw_cmp defaults int16 int16 Lt (RR (mkRaw 1 2) (mkRaw 1 3)) = None /\
  short_enough int16 /\ narrow int16.
Proof. vm_compute. repeat split; discriminate. Qed.

(** C108: trunc, floor and ceil are always defined and as for int (C27, C28, C29), but
    for the least number over -1, which they return unchanged. *)
Theorem C108_whole : forall t v q, narrow t -> wf_raw t v -> value v = Some q -> v <> mkRaw (rmin t) (-1) ->
  exists a b c, nw_trunc t v = Ok a /\ nw_floor t v = Ok b /\ nw_ceil t v = Ok c /\ is_trunc a q /\
    (tiny_negative q -> b = 0 /\ c = 1) /\ (~ tiny_negative q -> is_floor b q /\ is_ceil c q).
Proof. exact c108_whole. Qed.
Print Assumptions C108_whole.

Theorem C108_whole_least : forall t, narrow t -> rsigned t = true ->
  nw_trunc t (mkRaw (rmin t) (-1)) = Ok (rmin t) /\ nw_floor t (mkRaw (rmin t) (-1)) = Ok (rmin t) /\
  nw_ceil t (mkRaw (rmin t) (-1)) = Ok (rmin t).
Proof. exact c108_whole_least. Qed.
Print Assumptions C108_whole_least.

Example c108_whole_case :
  nw_trunc (mkRep true 8) (mkRaw (-7) 2) = Ok (-3) /\ nw_floor (mkRep true 8) (mkRaw (-7) 2) = Ok (-4) /\
  nw_ceil (mkRep false 8) (mkRaw 255 2) = Ok 128 /\ nw_trunc (mkRep true 8) (mkRaw (-128) (-1)) = Ok (-128).
Proof. vm_compute. repeat split. Qed.

(** C108: is_integer and is_unit_fraction are always defined and agree with the value. *)
Theorem C108_queries : forall t v, narrow t -> wf_raw t v ->
  (exists b, nw_is_integer v = Ok b /\ (b = true <-> value_is (fun q => exists k, q == inject_Z k)%Q v)) /\
  (exists b, nw_is_unit_fraction v = Ok b /\ (b = true <-> value_is (fun q => exists k, k <> 0%Z /\ q == 1 / inject_Z k)%Q v)).
Proof. exact c108_queries. Qed.
Print Assumptions C108_queries.

(** C108: is_proper is always defined; it is right unless exactly one part is the least
    number, and then it is wrong. *)
Theorem C108_proper : forall t v, narrow t -> wf_raw t v -> value v <> None ->
  exists b, nw_is_proper t v = Ok b /\
    (rsigned t = false \/ (num v = rmin t <-> den v = rmin t) -> (b = true <-> value_is (fun q => Qabs q < 1)%Q v)) /\
    (rsigned t = true /\ ~ (num v = rmin t <-> den v = rmin t) -> (b = false <-> value_is (fun q => Qabs q < 1)%Q v)).
Proof. exact c108_proper. Qed.
Print Assumptions C108_proper.

Theorem C108_proper_refuted : exists v, wf_raw (mkRep true 16) v /\ value v = Some (-1 # 32768)%Q /\ nw_is_proper (mkRep true 16) v = Ok false.
Proof. exact c108_proper_refuted. Qed.
Print Assumptions C108_proper_refuted.

(** C108: normalize_signs is always defined; it keeps the value unless the denominator is
    negative and exactly one part is the least number, when it changes the sign. *)
Theorem C108_signs : forall t v q, narrow t -> rsigned t = true -> wf_raw t v -> value v = Some q ->
  exists r p, nw_normalize_signs t v = Ok r /\ wf_raw t r /\ value r = Some p /\
    (0 < den v \/ (num v = rmin t <-> den v = rmin t) -> (p == q)%Q) /\
    (den v < 0 /\ ~ (num v = rmin t <-> den v = rmin t) -> (p == - q)%Q) /\
    (den v <> rmin t -> 0 < den r).
Proof. exact c108_signs. Qed.
Print Assumptions C108_signs.

Theorem C108_signs_refuted : exists v r, wf_raw (mkRep true 16) v /\ value v = Some (-1 # 32768)%Q /\
  nw_normalize_signs (mkRep true 16) v = Ok r /\ value r = Some (1 # 32768)%Q.
Proof. exact c108_signs_refuted. Qed.
Print Assumptions C108_signs_refuted.

Example c108_signs_case :
  nw_normalize_signs (mkRep true 16) (mkRaw 3 (-4)) = Ok (mkRaw (-3) 4) /\ nw_is_proper (mkRep true 16) (mkRaw 3 (-4)) = Ok true /\
  nw_is_integer (mkRaw (-32768) (-1)) = Ok true /\ nw_is_unit_fraction (mkRaw (-2) 128) = Ok true.
Proof. vm_compute. repeat split. Qed.

(** C108: pow2 is exact as far as the type reaches, and wraps silently above. *)
Theorem C108_pow2 : forall t e, narrow t -> Z.abs e < (if rsigned t then rbits t - 1 else rbits t) ->
  exists r v, nw_pow2 t e = Ok r /\ wf_raw t r /\ value r = Some v /\ (v == (2 # 1) ^ e)%Q.
Proof. exact c108_pow2. Qed.
Print Assumptions C108_pow2.

Theorem C108_pow2_refuted :
  nw_pow2 (mkRep true 16) 15 = Ok (mkRaw (-32768) 1) /\ nw_pow2 (mkRep true 16) (-16) = Ok (mkRaw 1 0) /\
  nw_pow2 (mkRep false 8) 31 = Ok (mkRaw 0 1).
Proof. exact c108_pow2_refuted. Qed.
Print Assumptions C108_pow2_refuted.
