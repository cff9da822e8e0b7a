(** Property theorems: rounding fractions of unsigned integers.

    Each is closed by the lemma of the same name in Uround_claims.v. *)

From Coq Require Import ZArith QArith Bool Lia List.
From Verif Require Import Machine Raw Ops Spec Fraction Fmath Fmath_spec Stack_spec Outcome_spec Uround_spec.
From Verif Require Import Machine_proofs Value_proofs Ops_proofs Fmath_proofs Fmath_claims Uround_proofs.
Import ListNotations.
Open Scope Z_scope.
From Verif Require Import Uround_claims.

(** C107: trunc, floor and ceil of a fraction of unsigned integers: exactly when they
    are defined, and what they return. *)
Theorem C107_whole : forall t v k, wf_rep t -> rsigned t = false -> wf_raw t v ->
  (f_trunc t v = Ok k <-> den v <> 0 /\ k = num v / den v) /\
  (f_floor t v = Ok k <-> den v <> 0 /\ k = num v / den v) /\
  (f_ceil t v = Ok k <-> den v <> 0 /\ k = num v / den v + (if num v mod den v =? 0 then 0 else 1)).
Proof. exact c107_whole. Qed.
Print Assumptions C107_whole.

(** C107: round under every policy: exactly when it is defined, and what it returns. *)
Theorem C107_round : forall o t v k, wf_rep t -> rsigned t = false -> wf_raw t v ->
  (f_round (denote o) t v = Ok k <-> rounds o t v k).
Proof. exact c107_round. Qed.
Print Assumptions C107_round.

(** C107: what round returns is the nearest integer, ties going up, under every policy
    built on safe, and under the others if twice the denominator (after cancelling)
    fits. *)
Theorem C107_round_nearest : forall o t v k, wf_rep t -> rsigned t = false -> wf_raw t v ->
  on_lcm o = true \/ 2 * (den v / cancelled o v) <= 2 ^ rbits t ->
  f_round (denote o) t v = Ok k -> exists q, value v = Some q /\ is_round k q.
Proof. exact c107_round_nearest. Qed.
Print Assumptions C107_round_nearest.

(** C107: otherwise it may be wrong without notice: under every policy built on fast
    (2^31+5)/(2^31+7), almost one, rounds to 0 with 32 bits. *)
Theorem C107_fast_round_refuted : forall o, on_lcm o = false -> exists v k q,
  wf_raw uint32 v /\ f_round (denote o) uint32 v = Ok k /\ value v = Some q /\ ~ is_round k q.
Proof. exact c107_fast_round_refuted. Qed.
Print Assumptions C107_fast_round_refuted.

Example c107_round_cases :
  f_round (denote Safe) uint32 (mkRaw 7 2) = Ok 4 /\ f_round (denote defaults) uint32 (mkRaw 10 4) = Ok 3 /\
  f_round (denote fast_reduced_io) uint32 (mkRaw 5 4) = Ok 1 /\ rounds defaults uint32 (mkRaw 10 4) 3 /\
  2 * (den (mkRaw 5 4) / cancelled Fast (mkRaw 5 4)) <= 2 ^ rbits uint32 /\ on_lcm Fast = false.
Proof.
  repeat (split; [vm_compute; reflexivity|]). split; [|split; [vm_compute; discriminate|reflexivity]].
  unfold rounds. split; [discriminate|]. split; [intros _; left; reflexivity|reflexivity].
Qed.

(** C107: redenominating under every policy: exactly when it is defined, and what it
    returns, where the product of the numerator and the new denominator wraps. *)
Theorem C107_redenominate : forall o t v d m r, wf_rep t -> rsigned t = false -> wf_raw t v -> in_rep t d = true ->
  f_redenominate (denote o) t v d m = Ok r <->
  den v <> 0 /\ den r = d /\
  match m with
  | round_trunc | round_floor => num r = num (scaled o t v d) / den (scaled o t v d)
  | round_ceil => num r = num (scaled o t v d) / den (scaled o t v d) + (if num (scaled o t v d) mod den (scaled o t v d) =? 0 then 0 else 1)
  | round_round => rounds o t (scaled o t v d) (num r)
  end.
Proof. exact c107_redenominate. Qed.
Print Assumptions C107_redenominate.

(** C107: if that product fits, the numerator is the value times the new denominator,
    rounded in the given way. *)
Theorem C107_redenominate_exact : forall o t v d m r q, wf_rep t -> rsigned t = false -> wf_raw t v -> in_rep t d = true ->
  value v = Some q -> num (lowest (effect (input_modes o)) v) * d <= rmax t ->
  f_redenominate (denote o) t v d m = Ok r ->
  den r = d /\
  match m with
  | round_trunc => is_trunc (num r) (q * inject_Z d)
  | round_floor => is_floor (num r) (q * inject_Z d)
  | round_ceil => is_ceil (num r) (q * inject_Z d)
  | round_round =>
      on_lcm o = true \/ 2 * den (scaled o t v d) <= 2 ^ rbits t -> is_round (num r) (q * inject_Z d)
  end.
Proof. exact c107_redenominate_exact. Qed.
Print Assumptions C107_redenominate_exact.

(** C107: otherwise it may be wrong without notice: with 32 bits and the default policy
    3/4 over the denominator 2^31 becomes 1/4. *)
Theorem C107_redenominate_refuted : forall m, exists r,
  f_redenominate (denote defaults) uint32 (mkRaw 3 4) 2147483648 m = Ok r /\
  same_value (value r) (Some (1 # 4)).
Proof. exact c107_redenominate_refuted. Qed.
Print Assumptions C107_redenominate_refuted.

Example c107_redenominate_cases :
  f_redenominate (denote defaults) uint32 (mkRaw 6 8) 10 round_trunc = Ok (mkRaw 7 10) /\
  f_redenominate (denote defaults) uint32 (mkRaw 6 8) 10 round_ceil = Ok (mkRaw 8 10) /\
  f_redenominate (denote Fast) uint32 (mkRaw 6 8) 10 round_round = Ok (mkRaw 8 10) /\
  num (lowest (effect (input_modes defaults)) (mkRaw 6 8)) * 10 <= rmax uint32 /\
  2 * den (scaled Fast uint32 (mkRaw 6 8) 10) <= 2 ^ rbits uint32.
Proof. repeat (split; [vm_compute; reflexivity|]). split; vm_compute; discriminate. Qed.
