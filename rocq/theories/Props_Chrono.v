(** Property theorems: durations.

    Each is closed by the lemma of the same name in Chrono_claims.v. *)

From Coq Require Import ZArith QArith List Bool Lia Lqa.
From Verif Require Import Machine Raw Ops Spec Fraction Mixed_spec Chrono Chrono_spec.
From Verif Require Import Machine_proofs Value_proofs Fmath_proofs Limits_proofs Literals_proofs Chrono_proofs.
Import ListNotations.
Open Scope Z_scope.
From Verif Require Import Chrono_claims.

(** C54, for representations that hold the conversion factor and the count:
    an undefined count stays undefined. *)
Theorem C54_conversion_exact_partial : forall o t from to c r,
  signed_rep t -> wf_period from -> wf_period to -> wf_count t c -> factor_fits t from to ->
  duration_cast (denote o) t from to c = Some (Ok r) ->
  same_value (seconds (value r) to) (seconds (count_value c) from).
Proof. exact c54_conversion_exact_partial. Qed.
Print Assumptions C54_conversion_exact_partial.

(** C54: the factor always fits a signed representation of at least 64 bits. *)
Theorem C54_wide_conversion_exact : forall o t from to c r,
  signed_rep t -> 64 <= rbits t -> wf_period from -> wf_period to -> wf_count t c ->
  duration_cast (denote o) t from to c = Some (Ok r) ->
  same_value (seconds (value r) to) (seconds (count_value c) from).
Proof. exact c54_wide_conversion_exact. Qed.
Print Assumptions C54_wide_conversion_exact.

(** C54: no undefined behaviour when the count times the numerator of the
    factor fits. *)
Theorem C54_conversion_total : forall o t from to s z n d,
  signed_rep t -> wf_period from -> wf_period to -> in_rep s z = true ->
  0 < n -> 0 < d -> Z.gcd n d = 1 ->
  (inject_Z n / inject_Z d == period_value from / period_value to)%Q ->
  n <= rmax int64 -> d <= rmax int64 -> n <= rmax t -> d <= rmax t -> Z.abs (z * n) <= rmax t ->
  exists r, duration_cast (denote o) t from to (IntCount s z) = Some (Ok r) /\
    same_value (seconds (value r) to) (seconds (Some (inject_Z z)) from).
Proof. exact c54_conversion_total. Qed.
Print Assumptions C54_conversion_total.

(** C54: to_fractional keeps the count, of durations and of time points. *)
Theorem C54_to_fractional_keeps_count : forall o t pd z,
  signed_rep t -> wf_period pd -> in_rep t z = true ->
  to_fractional (denote o) t pd z = Some (Ok (mkRaw z 1)).
Proof. exact c54_to_fractional_keeps_count. Qed.
Print Assumptions C54_to_fractional_keeps_count.

(** C54: the time of a wrapped clock, in the requested period. *)
Theorem C54_clock_now : forall o t clock_period pd ticks r,
  signed_rep t -> 64 <= rbits t -> wf_period clock_period -> wf_period pd -> in_rep t ticks = true ->
  clock_wrapper_now (denote o) t clock_period pd ticks = Some (Ok r) ->
  same_value (seconds (value r) pd) (seconds (Some (inject_Z ticks)) clock_period).
Proof. exact c54_clock_now. Qed.
Print Assumptions C54_clock_now.

(** C54 is false for narrower representations: the factor is silently reduced
    modulo 2^32 (one second in units of 10^-10 s). *)
Theorem C54_narrow_refuted : exists from to c r,
  wf_period from /\ wf_period to /\ wf_count int32 c /\
  duration_cast (denote defaults) int32 from to c = Some (Ok r) /\
  ~ same_value (seconds (value r) to) (seconds (count_value c) from).
Proof. exact c54_narrow_refuted. Qed.
Print Assumptions C54_narrow_refuted.

Example C54_nonvacuous :
  duration_cast (denote defaults) int64 (mkPeriod 1 1000) (mkPeriod 60 1) (IntCount int64 (-90000))
    = Some (Ok (mkRaw (-3) 2)) /\
  duration_cast (denote defaults) int64 (mkPeriod 60 1) (mkPeriod 1 30) (FracCount (mkRaw 5 7))
    = Some (Ok (mkRaw 9000 7)) /\
  wf_period (mkPeriod 1 1000) /\ wf_period (mkPeriod 60 1) /\ wf_count int64 (IntCount int64 (-90000)) /\
  clock_wrapper_now (denote defaults) int64 (mkPeriod 1 1000000000) (mkPeriod 1 1) 1500000000 = Some (Ok (mkRaw 3 2)).
Proof. unfold wf_period. repeat split; vm_compute; auto. Qed.

(** C63: sums and differences of durations of any periods. *)
Theorem C63_sum_exact : forall o t op pl pr l r pc x,
  signed_rep t -> 64 <= rbits t -> wf_period pl -> wf_period pr -> wf_count t l -> wf_count t r ->
  op = Plus \/ op = Minus ->
  duration_arith (denote o) t op pl pr l r = Some (pc, Ok x) ->
  same_value (seconds (value x) pc)
    (exact_opt op (seconds (count_value l) pl) (seconds (count_value r) pr)).
Proof. exact c63_sum_exact. Qed.
Print Assumptions C63_sum_exact.

(** C63: comparisons of durations of any periods. *)
Theorem C63_less_exact : forall o t pl pr l r b x y,
  signed_rep t -> 64 <= rbits t -> wf_period pl -> wf_period pr -> wf_count t l -> wf_count t r ->
  built_on_safe o = true \/ normalises_inputs o = true ->
  seconds (count_value l) pl = Some x -> seconds (count_value r) pr = Some y ->
  duration_lt (denote o) t pl pr l r = Some (Ok b) -> (b = true <-> (x < y)%Q).
Proof. exact c63_less_exact. Qed.
Print Assumptions C63_less_exact.

Theorem C63_less_equal_exact : forall o t pl pr l r b x y,
  signed_rep t -> 64 <= rbits t -> wf_period pl -> wf_period pr -> wf_count t l -> wf_count t r ->
  built_on_safe o = true \/ normalises_inputs o = true ->
  seconds (count_value l) pl = Some x -> seconds (count_value r) pr = Some y ->
  duration_le (denote o) t pl pr l r = Some (Ok b) -> (b = true <-> (x <= y)%Q).
Proof. exact c63_less_equal_exact. Qed.
Print Assumptions C63_less_equal_exact.

Theorem C63_equal_exact : forall o t pl pr l r b,
  signed_rep t -> 64 <= rbits t -> wf_period pl -> wf_period pr -> wf_count t l -> wf_count t r ->
  duration_eq (denote o) t pl pr l r = Some (Ok b) ->
  (b = true <-> exists x y, seconds (count_value l) pl = Some x /\
     seconds (count_value r) pr = Some y /\ (x == y)%Q).
Proof. exact c63_equal_exact. Qed.
Print Assumptions C63_equal_exact.

(** C63: unlike fractions, an undefined duration is <= every duration, since
    durations derive <= from <. *)
Theorem C63_undefined_less_equal_refuted : exists l r b,
  wf_count int64 l /\ wf_count int64 r /\ count_value l = None /\
  p_cmp (denote defaults) int64 Le (RR (to_cr int64 l) (to_cr int64 r)) = Ok b /\
  duration_le (denote defaults) int64 (mkPeriod 1 1) (mkPeriod 1 1) l r = Some (Ok (negb b)).
Proof. exact c63_undefined_less_equal_refuted. Qed.
Print Assumptions C63_undefined_less_equal_refuted.

Example C63_nonvacuous :
  duration_arith (denote defaults) int64 Plus (mkPeriod 1 2) (mkPeriod 1 3)
    (FracCount (mkRaw 1 5)) (IntCount int64 2) = Some (mkPeriod 1 6, Ok (mkRaw 23 5)) /\
  duration_lt (denote defaults) int64 (mkPeriod 1 2) (mkPeriod 1 3)
    (FracCount (mkRaw 1 5)) (IntCount int64 2) = Some (Ok true) /\
  duration_le (denote defaults) int64 (mkPeriod 3 1) (mkPeriod 2 1) (IntCount int64 2) (IntCount int64 3) = Some (Ok true) /\
  duration_eq (denote defaults) int64 (mkPeriod 3 1) (mkPeriod 2 1) (IntCount int64 2) (IntCount int64 3) = Some (Ok true).
Proof. repeat split; vm_compute; reflexivity. Qed.
