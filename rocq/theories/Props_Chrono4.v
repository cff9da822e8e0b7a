(** Property theorems: duration::zero, min and max.

    Each is closed by the lemma of the same name in Chrono4_claims.v. *)

From Coq Require Import ZArith QArith List Bool Lia Lqa.
From Verif Require Import Machine Raw Ops Spec Fraction Mixed_spec Limits Chrono Chrono_spec Chrono2 Defined_spec Chrono3_spec.
From Verif Require Import Machine_proofs Value_proofs Fmath_proofs Limits_proofs Literals_proofs Chrono_proofs Defined_proofs Chrono3_proofs Chrono4_proofs.
Import ListNotations.
Open Scope Z_scope.
From Verif Require Import Chrono4_claims.

(** C86: adding zero is always defined under the default policy and keeps the value. *)
Theorem C86_zero_neutral : forall t pd c q, signed_rep t -> 64 <= rbits t -> wf_period pd -> count_bounded (rmax t) c -> count_value c = Some q ->
  exists x, duration_arith (denote defaults) t Plus pd pd c (FracCount duration_zero) = Some (pd, Ok x) /\
    same_value (value x) (Some q) /\ canonical x.
Proof. exact c86_zero_neutral. Qed.
Print Assumptions C86_zero_neutral.

(** C86: comparing with zero is always defined under the default policy and tells the sign. *)
Theorem C86_zero_sign : forall t pd c q, signed_rep t -> 64 <= rbits t -> wf_period pd -> count_bounded (rmax t) c -> count_value c = Some q ->
  exists b1 b2, duration_lt (denote defaults) t pd pd c (FracCount duration_zero) = Some (Ok b1) /\
    duration_lt (denote defaults) t pd pd (FracCount duration_zero) c = Some (Ok b2) /\
    (b1 = true <-> (q < 0)%Q) /\ (b2 = true <-> (0 < q)%Q).
Proof. exact c86_zero_sign. Qed.
Print Assumptions C86_zero_sign.

Example C86_zero_example :
  duration_lt (denote defaults) int64 (mkPeriod 1 1000) (mkPeriod 1 1000) (FracCount (mkRaw (-1) 9223372036854775807)) (FracCount duration_zero)
    = Some (Ok true) /\
  duration_arith (denote defaults) int64 Plus (mkPeriod 1 1000) (mkPeriod 1 1000) (FracCount (mkRaw 6 4)) (FracCount duration_zero)
    = Some (mkPeriod 1 1000, Ok (mkRaw 3 2)).
Proof. split; vm_compute; reflexivity. Qed.

(** C86: no duration is less than duration::min(), and none but min()/-1 ticks is
    greater than duration::max(), under every policy that orders fractions. *)
Theorem C86_bounds : forall o t pd c q, signed_rep t -> 64 <= rbits t -> wf_period pd -> wf_count t c -> count_value c = Some q ->
  built_on_safe o = true \/ normalises_inputs o = true ->
  duration_lt (denote o) t pd pd c (FracCount (duration_min t)) <> Some (Ok true) /\
  (c <> FracCount (mkRaw (rmin t) (-1)) ->
   duration_lt (denote o) t pd pd (FracCount (duration_max t)) c <> Some (Ok true)).
Proof. exact c86_bounds. Qed.
Print Assumptions C86_bounds.

(** C86: under the default policy, only whole numbers of ticks can be compared with
    duration::max() ... *)
Theorem C86_max_defined_iff : forall t pd c q, signed_rep t -> wf_period pd -> count_bounded (rmax t) c -> count_value c = Some q ->
  ((exists v, duration_lt (denote defaults) t pd pd c (FracCount (duration_max t)) = Some (Ok v)) <-> low_den q = 1) /\
  ((exists v, duration_lt (denote defaults) t pd pd (FracCount (duration_max t)) c = Some (Ok v)) <-> low_den q = 1).
Proof. exact c86_max_defined_iff. Qed.
Print Assumptions C86_max_defined_iff.

(** C86: ... and nothing can be compared with duration::min(). *)
Theorem C86_min_undefined : forall t pd c, signed_rep t -> wf_period pd ->
  (exists u, duration_lt (denote defaults) t pd pd c (FracCount (duration_min t)) = Some (UB u)) /\
  (exists u, duration_lt (denote defaults) t pd pd (FracCount (duration_min t)) c = Some (UB u)).
Proof. exact c86_min_undefined. Qed.
Print Assumptions C86_min_undefined.

(** C86: half a second is not known to be less than duration::max(). *)
Theorem C86_limits_refuted : exists c q u, count_bounded (rmax int64) c /\ count_value c = Some q /\
  duration_lt (denote defaults) int64 (mkPeriod 1 1) (mkPeriod 1 1) c (FracCount (duration_max int64)) = Some (UB u).
Proof. exact c86_limits_refuted. Qed.
Print Assumptions C86_limits_refuted.

Example C86_bounds_example :
  duration_lt (denote Safe) int64 (mkPeriod 1 1) (mkPeriod 1 1) (FracCount (mkRaw 5 1)) (FracCount (duration_max int64)) = Some (Ok true) /\
  duration_lt (denote defaults) int64 (mkPeriod 1 1) (mkPeriod 1 1) (FracCount (mkRaw 10 2)) (FracCount (duration_max int64)) = Some (Ok true).
Proof. split; vm_compute; reflexivity. Qed.
