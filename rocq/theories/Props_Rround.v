(** Property theorems: rounding under policies that keep signs.

    Each is closed by the lemma of the same name in Rround_claims.v. *)

From Coq Require Import ZArith QArith Bool Lia List.
From Verif Require Import Machine Raw Ops Spec Fraction Fmath Fmath_spec Stack_spec Outcome_spec.
From Verif Require Import Machine_proofs Value_proofs Ops_proofs Fmath_proofs Rround_proofs.
Import ListNotations.
Open Scope Z_scope.
From Verif Require Import Rround_claims.

(** C30: under policies built on fast that normalise only the signs of their results,
    round is as under the others, also for negative denominators. *)
Theorem C30_round_output_partial : forall o t v k, wf_rep t -> rsigned t = true -> wf_raw t v ->
  on_lcm o = false -> effect (input_modes o) <> Normalising -> effect (output_modes o) = Normalising ->
  f_round (denote o) t v = Ok k ->
  exists q, value v = Some q /\ (~ below_minus_half q -> is_round k q) /\ (below_minus_half q -> k = 0).
Proof. exact c30_round_output_partial. Qed.
Print Assumptions C30_round_output_partial.

Example c30_round_output_case :
  let o := ReducedOutput Fast normalize_signs_mode in
  on_lcm o = false /\ effect (input_modes o) = Absent /\ effect (output_modes o) = Normalising /\
  f_round (denote o) int32 (mkRaw (-5) (-4)) = Ok 1.
Proof. repeat split. Qed.

(** C30: under policies built on fast that normalise no signs, round of a fraction with
    a negative denominator goes the wrong way: up when the fractional part is at most
    one half, also for integers, and down otherwise. *)
Theorem C30_round_reversed : forall o t v k, wf_rep t -> rsigned t = true -> wf_raw t v ->
  on_lcm o = false -> effect (input_modes o) <> Normalising -> effect (output_modes o) <> Normalising -> den v < 0 ->
  f_round (denote o) t v = Ok k ->
  exists q f, value v = Some q /\ (tiny_negative q -> f = 0) /\ (~ tiny_negative q -> is_floor f q) /\
    ((q <= inject_Z f + (1 # 2))%Q -> k = f + 1) /\ ((inject_Z f + (1 # 2) < q)%Q -> k = f).
Proof. exact c30_round_reversed. Qed.
Print Assumptions C30_round_reversed.

(** C30: so an integer is rounded to the next one. *)
Theorem C30_round_integer : forall o t n, wf_rep t -> rsigned t = true -> in_rep t n = true ->
  on_lcm o = false -> effect (input_modes o) <> Normalising -> effect (output_modes o) <> Normalising ->
  forall k, f_round (denote o) t (mkRaw n (-1)) = Ok k -> k = - n + 1.
Proof. exact c30_round_integer. Qed.
Print Assumptions C30_round_integer.

Example c30_round_reversed_cases :
  f_round (denote Fast) int32 (mkRaw (-5) (-4)) = Ok 2 /\ f_round (denote Fast) int32 (mkRaw (-7) (-4)) = Ok 1 /\
  f_round (denote Fast) int32 (mkRaw (-3) (-1)) = Ok 4 /\ f_round (denote Fast) int32 (mkRaw 1 (-4)) = Ok 1 /\
  on_lcm Fast = false /\ effect (input_modes Fast) = Absent /\ effect (output_modes Fast) = Absent.
Proof. repeat split. Qed.
