(** Property theorems: operators across representations, assignment, expressions, conversions.

    Each is closed by the lemma of the same name in Fraction_claims.v. *)

From Coq Require Import ZArith QArith Qabs Bool Lia List.
From Verif Require Import Machine Raw Ops Spec Fraction Fraction_spec.
From Verif Require Import Machine_proofs Value_proofs Ops_proofs Total_proofs Cmp_proofs Order_proofs Algebra_proofs Laws_proofs Fraction_proofs.
Import ListNotations.
Open Scope Z_scope.
From Verif Require Import Fraction_claims.

(** C51: whenever the common type is signed, or no part of an operand is
    negative, the operator is the policy's operator in the common type on the
    unchanged operands.  Integer operands may have any integral type. *)
Theorem C51_computes_in_common_type : forall p tl tr op a,
  wf_reps tl tr a -> wf_args2 tl tr a ->
  rsigned (common_rep tl tr) = true \/ non_negative_args a ->
  f_arith p tl tr op a = p_arith p (common_rep tl tr) op a.
Proof. exact c51_computes_in_common_type. Qed.
Print Assumptions C51_computes_in_common_type.

Theorem C51_compares_in_common_type : forall p tl tr op a,
  wf_reps tl tr a -> wf_args2 tl tr a ->
  rsigned (common_rep tl tr) = true \/ non_negative_args a ->
  f_cmp p tl tr op a = p_cmp p (common_rep tl tr) op a.
Proof. exact c51_compares_in_common_type. Qed.
Print Assumptions C51_compares_in_common_type.

(** C51: so the result is the exact one. *)
Theorem C51_mixed_exact : forall o tl tr op a r x y,
  wf_reps tl tr a -> wf_args2 tl tr a -> rsigned (common_rep tl tr) = true ->
  left_value a = Some x -> right_value a = Some y ->
  f_arith (denote o) tl tr op a = Ok r ->
  same_value (value r) (exact op x y).
Proof. exact c51_mixed_exact. Qed.
Print Assumptions C51_mixed_exact.

Theorem C51_mixed_equality_exact : forall o tl tr a b,
  wf_reps tl tr a -> wf_args2 tl tr a -> rsigned (common_rep tl tr) = true ->
  f_cmp (denote o) tl tr Eq a = Ok b ->
  (b = true <-> exists x y, left_value a = Some x /\ right_value a = Some y /\ (x == y)%Q).
Proof. exact c51_mixed_equality_exact. Qed.
Print Assumptions C51_mixed_equality_exact.

(** C51: mixing int with unsigned int converts negative parts modulo 2^32:
    -1/2 < 1/2 is false, and -1/2 * 1/2 is 4294967295/4. *)
Theorem C51_unsigned_refuted : exists l r s,
  wf_reps int32 uint32 (RR l r) /\ wf_args2 int32 uint32 (RR l r) /\
  f_cmp (denote defaults) int32 uint32 Lt (RR l r) = Ok false /\
  f_arith (denote defaults) int32 uint32 Multiplies (RR l r) = Ok s /\
  value l = Some ((-1) / 2)%Q /\ value r = Some (1 / 2)%Q /\
  ~ same_value (value s) (Some (-1 # 4)%Q).
Proof. exact c51_unsigned_refuted. Qed.
Print Assumptions C51_unsigned_refuted.

Example C51_nonvacuous :
  common_rep int32 int64 = int64 /\ common_rep int64 uint32 = int64 /\
  common_rep int32 uint32 = uint32 /\
  f_arith (denote defaults) int32 int64 Plus (RR (mkRaw 1 (-2)) (mkRaw 10000000000 3)) = Ok (mkRaw 19999999997 6) /\
  f_arith (denote defaults) int64 uint32 Plus (RI (mkRaw (-1) 2) 4294967295) = Ok (mkRaw 8589934589 2) /\
  f_arith (denote Safe) (mkRep true 16) int32 Minus (IR (-7) (mkRaw 1 2)) = Ok (mkRaw (-15) 2).
Proof. repeat split; vm_compute; reflexivity. Qed.

(** C52: after any sequence of compound assignments.  Operands may have other
    representations as long as their parts fit the type of the target. *)
Theorem C52_assignment_sequence_exact : forall o t xs f r,
  wf_rep t -> rsigned t = true -> wf_raw t f ->
  (forall op x, In (op, x) xs -> operand_fits t x /\ operand_value x <> None) ->
  f_assign_all (denote o) t f xs = Ok r ->
  same_value (value r) (assign_value (value f) xs).
Proof. exact c52_assignment_sequence_exact. Qed.
Print Assumptions C52_assignment_sequence_exact.

(** C52: a policy that reduces its inputs also propagates undefined operands. *)
Theorem C52_assignment_sequence_undefined : forall o t xs f r,
  wf_rep t -> rsigned t = true -> wf_raw t f -> reduces_inputs o = true ->
  (forall op x, In (op, x) xs -> operand_fits t x) ->
  f_assign_all (denote o) t f xs = Ok r ->
  same_value (value r) (assign_value (value f) xs).
Proof. exact c52_assignment_sequence_undefined. Qed.
Print Assumptions C52_assignment_sequence_undefined.

(** C52: canonical results. *)
Theorem C52_assignment_sequence_canonical : forall o t xs f r,
  wf_rep t -> rsigned t = true -> wf_raw t f -> output_canonical o = true -> xs <> [] ->
  (forall op x, In (op, x) xs -> operand_fits t x /\ operand_value x <> None) ->
  f_assign_all (denote o) t f xs = Ok r ->
  canonical r.
Proof. exact c52_assignment_sequence_canonical. Qed.
Print Assumptions C52_assignment_sequence_canonical.

(** C52: one assignment is the binary operator on the converted operand. *)
Theorem C52_assignment_is_operator : forall p t op f x,
  wf_rep t -> operand_fits t x ->
  f_assign p t op f x =
  match x with
  | FracOperand _ r => f_arith p t t op (RR f r)
  | IntOperand _ z => f_arith p t t op (RI f z)
  end.
Proof. exact c52_assignment_is_operator. Qed.
Print Assumptions C52_assignment_is_operator.

Example C52_nonvacuous :
  let xs := [(Plus, FracOperand int32 (mkRaw 1 3)); (Multiplies, IntOperand int64 6);
             (Divides, FracOperand int32 (mkRaw 4 (-2))); (Minus, IntOperand int32 1)] in
  f_assign_all (denote defaults) int32 (mkRaw 1 2) xs = Ok (mkRaw (-7) 2) /\
  f_assign_all (denote Fast) int32 (mkRaw 1 2) xs = Ok (mkRaw (-84) 24) /\
  same_value (assign_value (value (mkRaw 1 2)) xs) (Some (-7 # 2)%Q).
Proof. repeat split; vm_compute; reflexivity. Qed.

(** C55: under any policy that reduces its inputs (the default one), also with
    undefined leaves. *)
Theorem C55_expression_exact : forall o t e r,
  wf_rep t -> rsigned t = true -> reduces_inputs o = true -> wf_expr t e ->
  eval (denote o) t e = Ok r -> same_value (value r) (denotes e).
Proof. exact c55_expression_exact. Qed.
Print Assumptions C55_expression_exact.

(** C55: under every policy, when the expression denotes a number. *)
Theorem C55_expression_exact_any_policy : forall o t e r q,
  wf_rep t -> rsigned t = true -> wf_expr t e -> denotes e = Some q ->
  eval (denote o) t e = Ok r -> exists q', value r = Some q' /\ (q' == q)%Q.
Proof. exact c55_expression_exact_any_policy. Qed.
Print Assumptions C55_expression_exact_any_policy.

Theorem C55_expression_canonical : forall o t e r,
  wf_rep t -> output_canonical o = true -> wf_expr t e -> is_operation e = true ->
  eval (denote o) t e = Ok r -> canonical r.
Proof. exact c55_expression_canonical. Qed.
Print Assumptions C55_expression_canonical.

(** C55: evaluation has no undefined behaviour while the bound grown through
    the nesting depth fits the type. *)
Theorem C55_expression_total : forall o t e q B,
  wf_rep t -> rsigned t = true -> wf_expr t e -> denotes e = Some q ->
  1 <= B -> expr_bounded B e -> grow (depth e) B <= rmax t ->
  exists r q', eval (denote o) t e = Ok r /\ value r = Some q' /\ (q' == q)%Q.
Proof. exact c55_expression_total. Qed.
Print Assumptions C55_expression_total.

Example C55_nonvacuous :
  let e := Bin Minus (BinInt Multiplies (Bin Plus (Leaf (mkRaw 1 2)) (Neg (Leaf (mkRaw 2 (-3))))) 3)
                     (IntBin Divides 7 (Leaf (mkRaw 4 5))) in
  eval (denote defaults) int64 e = Ok (mkRaw (-21) 4) /\
  eval (denote Fast) int64 e = Ok (mkRaw 126 (-24)) /\
  same_value (denotes e) (Some (-21 # 4)%Q) /\
  reduces_inputs defaults = true /\ output_canonical defaults = true /\
  grow (depth e) 7 <= rmax int64.
Proof. repeat split; vm_compute; congruence. Qed.

(** C58: conversion keeps the parts exactly when both fit, and is modular
    otherwise. *)
Theorem C58_conversion_lossless_iff : forall s t r,
  wf_rep s -> wf_rep t -> wf_raw s r ->
  (f_convert s t r = r <-> wf_raw t r).
Proof. exact c58_conversion_lossless_iff. Qed.
Print Assumptions C58_conversion_lossless_iff.

Theorem C58_conversion_modular : forall s t r,
  wf_rep s -> wf_rep t -> wf_raw s r ->
  wf_raw t (f_convert s t r) /\
  (num (f_convert s t r) - num r) mod 2 ^ rbits t = 0 /\
  (den (f_convert s t r) - den r) mod 2 ^ rbits t = 0.
Proof. exact c58_conversion_modular. Qed.
Print Assumptions C58_conversion_modular.

(** C58: a widening conversion keeps every fraction. *)
Theorem C58_widening : forall s t r,
  wf_rep s -> wf_rep t -> wf_raw s r ->
  rsigned (common_rep s t) = true -> common_rep s t = t ->
  f_convert s t r = r.
Proof. exact c58_widening. Qed.
Print Assumptions C58_widening.

(** C58: from an integer and by default: lowest terms, so n/1 and 0/1. *)
Theorem C58_integer_and_default : forall n,
  value (f_of_int n) = Some (inject_Z n / 1)%Q /\ canonical (f_of_int n) /\
  same_value (value f_default) (Some 0%Q) /\ canonical f_default.
Proof. exact c58_integer_and_default. Qed.
Print Assumptions C58_integer_and_default.

(** C58: a raw fraction is undefined by default, and already what every undefined fraction
    reduces to, so 0/0. *)
Theorem C58_raw_default : value raw_default = None /\ canonical raw_default /\ is_defined raw_default = false /\
  forall t v m, wf_rep t -> value v = None -> reduce t v m = Ok raw_default.
Proof. exact c58_raw_default. Qed.
Print Assumptions C58_raw_default.

(** C58: from std::ratio<N, D>: lowest terms and the same value. *)
Theorem C58_ratio : forall t N D r,
  wf_rep t -> D <> 0 -> f_of_ratio t N D = Some r ->
  wf_raw t r /\ canonical r /\ same_value (value r) (Some (inject_Z N / inject_Z D)%Q).
Proof. exact c58_ratio. Qed.
Print Assumptions C58_ratio.

Example C58_nonvacuous :
  f_convert int64 int32 (mkRaw (-3) 4) = mkRaw (-3) 4 /\
  f_convert int64 int32 (mkRaw 4294967297 4) = mkRaw 1 4 /\
  f_convert int32 uint32 (mkRaw (-1) 2) = mkRaw 4294967295 2 /\
  f_of_ratio int32 6 (-8) = Some (mkRaw (-3) 4) /\
  f_of_ratio int32 10000000000 3 = None.
Proof. repeat split; vm_compute; reflexivity. Qed.
