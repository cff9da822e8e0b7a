(** Property theorems: limits of fractions.

    Each is closed by the lemma of the same name in Limits_claims.v. *)

From Coq Require Import ZArith QArith List Bool Lia Lqa.
From Verif Require Import Machine Raw Ops Spec Fraction Limits.
From Verif Require Import Machine_proofs Value_proofs Fmath_proofs Cmp_claims Limits_proofs.
Import ListNotations.
Open Scope Z_scope.
From Verif Require Import Limits_claims.

(** C49: min is a lower bound, for every representation, and is attained. *)
Theorem C49_min_bounds : forall t v q,
  wf_rep t -> wf_raw t v -> value v = Some q ->
  exists m, value (limits_min t) = Some m /\ (m <= q)%Q.
Proof. exact c49_min_bounds. Qed.
Print Assumptions C49_min_bounds.

(** C49: max is an upper bound, except that the one signed fraction min/-1 is
    above it. *)
Theorem C49_max_bounds_partial : forall t v q,
  wf_rep t -> wf_raw t v -> value v = Some q ->
  ~ (rsigned t = true /\ v = mkRaw (rmin t) (-1)) ->
  exists m, value (limits_max t) = Some m /\ (q <= m)%Q.
Proof. exact c49_max_bounds_partial. Qed.
Print Assumptions C49_max_bounds_partial.

(** C49: smallest is the least positive value, except that the one signed
    fraction -1/min is below it. *)
Theorem C49_smallest_partial : forall t v q,
  wf_rep t -> wf_raw t v -> value v = Some q -> (0 < q)%Q ->
  ~ (rsigned t = true /\ v = mkRaw (-1) (rmin t)) ->
  exists s, value (limits_smallest t) = Some s /\ (0 < s <= q)%Q.
Proof. exact c49_smallest_partial. Qed.
Print Assumptions C49_smallest_partial.

Theorem C49_limits_are_values : forall t, wf_rep t ->
  wf_raw t (limits_min t) /\ wf_raw t (limits_max t) /\ wf_raw t (limits_smallest t).
Proof. exact c49_limits_are_values. Qed.
Print Assumptions C49_limits_are_values.

(** C49 is false as stated for every signed representation. *)
Theorem C49_max_refuted : forall t, wf_rep t -> rsigned t = true ->
  exists v q m, wf_raw t v /\ value v = Some q /\ value (limits_max t) = Some m /\ (m < q)%Q.
Proof. exact c49_max_refuted. Qed.
Print Assumptions C49_max_refuted.

Theorem C49_smallest_refuted : forall t, wf_rep t -> rsigned t = true ->
  exists v q s, wf_raw t v /\ value v = Some q /\ value (limits_smallest t) = Some s /\ (0 < q < s)%Q.
Proof. exact c49_smallest_refuted. Qed.
Print Assumptions C49_smallest_refuted.

(** C49 through the operators: under every policy built on safe, or one that
    normalises its inputs, no comparison with the limits contradicts the bounds. *)
Theorem C49_operators_agree : forall o t v b,
  wf_rep t -> rsigned t = true -> wf_raw t v -> value v <> None ->
  built_on_safe o = true \/ normalises_inputs o = true ->
  (p_cmp (denote o) t Le (RR (limits_min t) v) = Ok b -> b = true) /\
  (v <> mkRaw (rmin t) (-1) -> p_cmp (denote o) t Le (RR v (limits_max t)) = Ok b -> b = true).
Proof. exact c49_operators_agree. Qed.
Print Assumptions C49_operators_agree.

Example C49_nonvacuous :
  wf_raw int32 (mkRaw (-7) 2) /\ value (mkRaw (-7) 2) <> None /\
  limits_min int32 = mkRaw (-2147483648) 1 /\ limits_max uint32 = mkRaw 4294967295 1 /\
  p_cmp safe int32 Le (RR (limits_min int32) (mkRaw (-7) 1)) = Ok true /\
  p_cmp safe int32 Le (RR (mkRaw (-7) 1) (limits_max int32)) = Ok true.
Proof. repeat split; try reflexivity; discriminate. Qed.

(** C50: for signed representations epsilon is exactly the gap: every value
    above one is at least 1 + epsilon, and some fraction has that value. *)
Theorem C50_epsilon_signed_partial : forall t, wf_rep t -> rsigned t = true ->
  exists e, value (nl_epsilon t) = Some e /\ (0 < e)%Q /\
  (forall v q, wf_raw t v -> value v = Some q -> (1 < q)%Q -> (1 + e <= q)%Q) /\
  (exists v q, wf_raw t v /\ value v = Some q /\ (q == 1 + e)%Q).
Proof. exact c50_epsilon_signed_partial. Qed.
Print Assumptions C50_epsilon_signed_partial.

(** C50 is false for every unsigned representation: the gap is 1/(max - 1),
    larger than epsilon. *)
Theorem C50_epsilon_unsigned_refuted : forall t, wf_rep t -> rsigned t = false ->
  exists e gap, value (nl_epsilon t) = Some e /\ (e < gap)%Q /\
  (forall v q, wf_raw t v -> value v = Some q -> (1 < q)%Q -> (1 + gap <= q)%Q) /\
  (exists v q, wf_raw t v /\ value v = Some q /\ (q == 1 + gap)%Q).
Proof. exact c50_epsilon_unsigned_refuted. Qed.
Print Assumptions C50_epsilon_unsigned_refuted.

Example C50_nonvacuous :
  nl_epsilon int32 = mkRaw 1 2147483647 /\ value (mkRaw (-2147483648) (-2147483647)) <> None /\
  wf_raw int32 (mkRaw (-2147483648) (-2147483647)).
Proof. repeat split; try reflexivity; discriminate. Qed.
