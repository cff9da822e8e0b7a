(** Property theorems: the remaining members of the interface.

    Each is closed by the lemma of the same name in Small_claims.v. *)

From Coq Require Import ZArith QArith Lia Lqa List Bool.
From Verif Require Import Machine Raw Ops Spec Fraction Fmath Fmath_spec Limits Limits2 Mixed Mixed_spec Chrono Chrono_spec Chrono2.
From Verif Require Import Machine_proofs Value_proofs Ops_proofs Algebra_proofs Fmath_claims Limits_claims Fmath_proofs Limits_proofs Literals_proofs Chrono_proofs Limits2_proofs Chrono3_proofs.
Import ListNotations.
Open Scope Z_scope.
From Verif Require Import Small_claims.

(** C06: unary minus of fractions is that of the policy, unary plus keeps the fraction. *)
Theorem C06_unary_operators : forall o t v r, signed_rep t -> wf_raw t v -> f_negate (denote o) t v = Ok r ->
  same_value (value r) (opp_opt (value v)) /\ f_posate v = v.
Proof. exact c06_unary_operators. Qed.
Print Assumptions C06_unary_operators.

Example C06_unary_example : f_negate (denote defaults) int32 (mkRaw 2 (-4)) = Ok (mkRaw 1 2).
Proof. vm_compute. reflexivity. Qed.

(** C27: to_whole with a mode is the rounding of that name. *)
Theorem C27_to_whole : forall o t v m k, signed_rep t -> wf_raw t v ->
  built_on_safe o = true \/ normalises_inputs o = true \/ 0 < den v ->
  f_to_whole (denote o) t v m = Ok k ->
  exists q, value v = Some q /\
    (~ tiny_negative q -> match m with
       | round_trunc => is_trunc k q
       | round_ceil => is_ceil k q
       | round_floor => is_floor k q
       | round_round => is_round k q
       end).
Proof. exact c27_to_whole. Qed.
Print Assumptions C27_to_whole.

Example C27_to_whole_example :
  map (f_to_whole (denote defaults) int32 (mkRaw (-7) 2)) [round_trunc; round_ceil; round_floor; round_round] =
    [Ok (-3); Ok (-3); Ok (-4); Ok (-3)].
Proof. vm_compute. reflexivity. Qed.

(** C42: a default mixed number is zero, in normal form; unary plus keeps it. *)
Theorem C42_default : normal_form mixed_default /\ same_value (mixed_value mixed_default) (Some 0%Q) /\
  forall m, mixed_posate m = m.
Proof. exact c42_default. Qed.
Print Assumptions C42_default.

(** C49: numeric_limits<fraction>::lowest and min are a lower bound of every fraction,
    max is an upper bound of all but min/-1, each of them a fraction. *)
Theorem C49_numeric_limits_partial : forall t v q, wf_rep t -> wf_raw t v -> value v = Some q ->
  wf_raw t (nl_lowest t) /\ wf_raw t (nl_min t) /\ wf_raw t (nl_max t) /\
  (exists m, value (nl_lowest t) = Some m /\ (m <= q)%Q) /\
  (exists m, value (nl_min t) = Some m /\ (m <= q)%Q) /\
  (~ (rsigned t = true /\ v = mkRaw (rmin t) (-1)) -> exists m, value (nl_max t) = Some m /\ (q <= m)%Q).
Proof. exact c49_numeric_limits_partial. Qed.
Print Assumptions C49_numeric_limits_partial.

(** C76: is_integer is false and not all values are integers; has_infinity is false and
    infinity() is zero; denorm_min(), signaling_NaN() and round_error() are zero too. *)
Theorem C76_is_integer : forall t, wf_rep t ->
  (nl_is_integer = true <-> forall v q, wf_raw t v -> value v = Some q -> exists z, (q == inject_Z z)%Q).
Proof. exact c76_is_integer. Qed.
Print Assumptions C76_is_integer.

Theorem C76_constants : nl_is_specialized = true /\ nl_has_infinity = false /\ nl_has_signaling_NaN = false /\ nl_is_iec559 = false /\
  forall f, In f [nl_infinity; nl_denorm_min; nl_signaling_NaN; nl_round_error] -> same_value (value f) (Some 0%Q).
Proof. exact c76_constants. Qed.
Print Assumptions C76_constants.

(** C63: time points: tp + d, tp - d and tp - tp denote the sum and the difference of
    the seconds since the epoch. *)
Theorem C63_time_points : forall o t pl pr l r pc x, signed_rep t -> 64 <= rbits t -> wf_period pl -> wf_period pr ->
  wf_count t l -> wf_count t r ->
  (time_point_plus (denote o) t pl pr l r = Some (pc, Ok x) ->
   same_value (seconds (value x) pc) (exact_opt Plus (seconds (count_value l) pl) (seconds (count_value r) pr))) /\
  (time_point_minus (denote o) t pl pr l r = Some (pc, Ok x) ->
   same_value (seconds (value x) pc) (exact_opt Minus (seconds (count_value l) pl) (seconds (count_value r) pr))) /\
  (time_point_difference (denote o) t pl pr l r = Some (pc, Ok x) ->
   same_value (seconds (value x) pc) (exact_opt Minus (seconds (count_value l) pl) (seconds (count_value r) pr))).
Proof. exact c63_time_points. Qed.
Print Assumptions C63_time_points.

Example C63_time_points_example :
  time_point_minus (denote defaults) int64 (mkPeriod 1 1) (mkPeriod 1 1000) (IntCount int64 10) (FracCount (mkRaw 1 3)) =
    Some (mkPeriod 1 1000, Ok (mkRaw 29999 3)).
Proof. vm_compute. reflexivity. Qed.

(** C75: -d has the opposite number of seconds. *)
Theorem C75_negate_exact : forall o t v r pd, signed_rep t -> wf_raw t v -> duration_negate (denote o) t v = Ok r ->
  same_value (seconds (value r) pd) (opp_opt (seconds (value v) pd)).
Proof. exact c75_negate_exact. Qed.
Print Assumptions C75_negate_exact.

(** C77: which of the policies the library names meet the conditions of the theorems about policies. *)
Theorem C77_named_policies :
  map (fun o => (built_on_safe o, reduces_inputs o, output_canonical o, normalises_inputs o))
    [Safe; safe_reduced_i; safe_reduced_o; safe_reduced_io; Fast; fast_reduced_i; fast_reduced_o; fast_reduced_io; defaults] =
  [(true, false, false, false); (true, true, false, false); (true, false, true, false); (true, true, true, false);
   (false, false, false, false); (false, true, false, false); (false, false, true, false); (false, true, true, false);
   (true, true, true, false)].
Proof. exact c77_named_policies. Qed.
Print Assumptions C77_named_policies.
