(** Property theorems: scaling, dividing and rounding durations.

    Each is closed by the lemma of the same name in Chrono2_claims.v. *)

From Coq Require Import ZArith QArith Qabs List Bool Lia Lqa.
From Verif Require Import Machine Raw Ops Spec Fraction Mixed_spec Chrono Chrono_spec Chrono2 Chrono2_spec.
From Verif Require Import Machine_proofs Value_proofs Algebra_proofs Fmath_proofs Limits_proofs Literals_proofs Chrono_proofs Chrono2_proofs.
Import ListNotations.
Open Scope Z_scope.
From Verif Require Import Chrono2_claims.

(** C75: a duration times, divided by or modulo a number: the period is kept and
    the count is exact, so the number of seconds is scaled exactly. *)
Theorem C75_scale_exact : forall o t op c s r,
  signed_rep t -> wf_count t c -> wf_scalar t s ->
  op <> Divides \/ reduces_inputs o = true \/ scalar_value s <> None ->
  duration_scale (denote o) t op c s = Ok r ->
  same_value (value r) (exact_opt op (count_value c) (scalar_value s)).
Proof. exact c75_scale_exact. Qed.
Print Assumptions C75_scale_exact.

(** C75: in seconds, for multiplication and division. *)
Theorem C75_scale_seconds : forall o t op c s r pd,
  signed_rep t -> wf_count t c -> wf_scalar t s -> op = Multiplies \/ op = Divides -> scalar_value s <> None ->
  duration_scale (denote o) t op c s = Ok r ->
  same_value (seconds (value r) pd) (exact_opt op (seconds (count_value c) pd) (scalar_value s)).
Proof. exact c75_scale_seconds. Qed.
Print Assumptions C75_scale_seconds.

(** C75: the quotient of two durations of any periods is the ratio of the numbers
    of seconds. *)
Theorem C75_ratio_exact : forall o t pl pr l r x,
  signed_rep t -> 64 <= rbits t -> wf_period pl -> wf_period pr -> wf_count t l -> wf_count t r ->
  reduces_inputs o = true \/ count_value r <> None ->
  duration_ratio (denote o) t pl pr l r = Some (Ok x) ->
  same_value (value x) (exact_opt Divides (seconds (count_value l) pl) (seconds (count_value r) pr)).
Proof. exact c75_ratio_exact. Qed.
Print Assumptions C75_ratio_exact.

(** C75: the remainder of two durations. *)
Theorem C75_remainder_exact : forall o t pl pr l r pc x,
  signed_rep t -> 64 <= rbits t -> wf_period pl -> wf_period pr -> wf_count t l -> wf_count t r ->
  duration_mod (denote o) t pl pr l r = Some (pc, Ok x) ->
  same_value (seconds (value x) pc) (exact_opt Modulus (seconds (count_value l) pl) (seconds (count_value r) pr)).
Proof. exact c75_remainder_exact. Qed.
Print Assumptions C75_remainder_exact.

(** C75: dividing by a duration and multiplying by it again gives the same time. *)
Theorem C75_divide_multiply : forall o t pl pr l r x y sl sr,
  signed_rep t -> 64 <= rbits t -> wf_period pl -> wf_period pr -> wf_count t l -> wf_count t r ->
  seconds (count_value l) pl = Some sl -> seconds (count_value r) pr = Some sr -> ~ (sr == 0)%Q ->
  duration_ratio (denote o) t pl pr l r = Some (Ok x) -> wf_raw t x ->
  duration_scale (denote o) t Multiplies r (FracScalar x) = Ok y ->
  same_value (seconds (value y) pr) (Some sl).
Proof. exact c75_divide_multiply. Qed.
Print Assumptions C75_divide_multiply.

(** C75: compound assignment with a duration of any period. *)
Theorem C75_assign_exact : forall o t op pl pr l r x,
  signed_rep t -> 64 <= rbits t -> wf_period pl -> wf_period pr -> wf_raw t l -> wf_count t r ->
  op = Plus \/ op = Minus \/ op = Modulus ->
  duration_assign (denote o) t op pl pr l r = Some (Ok x) ->
  same_value (seconds (value x) pl) (exact_opt op (seconds (value l) pl) (seconds (count_value r) pr)).
Proof. exact c75_assign_exact. Qed.
Print Assumptions C75_assign_exact.

(** C75: std::chrono::abs. *)
Theorem C75_abs_exact : forall o t v r q,
  signed_rep t -> wf_raw t v -> built_on_safe o = true \/ normalises_inputs o = true -> value v = Some q ->
  duration_abs (denote o) t v = Ok r -> same_value (value r) (Some (Qabs q)).
Proof. exact c75_abs_exact. Qed.
Print Assumptions C75_abs_exact.

(** C75: std::chrono::floor and ceil to a fractional duration do not round at all. *)
Theorem C75_floor_exact : forall o t from to c r q,
  signed_rep t -> 64 <= rbits t -> wf_period from -> wf_period to -> wf_count t c ->
  built_on_safe o = true \/ normalises_inputs o = true -> count_value c = Some q ->
  duration_floor (denote o) t from to c = Some (Ok r) \/ duration_ceil (denote o) t from to c = Some (Ok r) ->
  same_value (seconds (value r) to) (seconds (Some q) from).
Proof. exact c75_floor_exact. Qed.
Print Assumptions C75_floor_exact.

Example C75_nonvacuous :
  duration_scale (denote defaults) int64 Multiplies (IntCount int64 6) (FracScalar (mkRaw 1 4)) = Ok (mkRaw 3 2) /\
  duration_scale (denote defaults) int64 Divides (FracCount (mkRaw 7 2)) (IntScalar int32 3) = Ok (mkRaw 7 6) /\
  wf_scalar int64 (IntScalar int32 3) /\
  duration_ratio (denote defaults) int64 (mkPeriod 60 1) (mkPeriod 1 1000) (IntCount int64 1) (FracCount (mkRaw 7 2))
    = Some (Ok (mkRaw 120000 7)) /\
  duration_mod (denote defaults) int64 (mkPeriod 60 1) (mkPeriod 7 2) (IntCount int64 1) (IntCount int64 1)
    = Some (mkPeriod 1 2, Ok (mkRaw 1 1)) /\
  duration_scale (denote defaults) int64 Multiplies (FracCount (mkRaw 7 2)) (FracScalar (mkRaw 120000 7)) = Ok (mkRaw 60000 1) /\
  duration_assign (denote defaults) int64 Plus (mkPeriod 60 1) (mkPeriod 1 1000) (mkRaw 1 2) (IntCount int64 1)
    = Some (Ok (mkRaw 30001 60000)) /\
  duration_abs (denote defaults) int64 (mkRaw 3 (-4)) = Ok (mkRaw 3 4) /\
  duration_floor (denote defaults) int64 (mkPeriod 1 1000) (mkPeriod 1 1) (IntCount int64 (-1500)) = Some (Ok (mkRaw (-3) 2)) /\
  duration_ceil (denote defaults) int64 (mkPeriod 1 1000) (mkPeriod 1 1) (IntCount int64 (-1500)) = Some (Ok (mkRaw (-3) 2)) /\
  wf_period (mkPeriod 7 2) /\ wf_period (mkPeriod 60 1) /\ wf_period (mkPeriod 1 1000).
Proof. unfold wf_period. repeat split; vm_compute; auto. Qed.
