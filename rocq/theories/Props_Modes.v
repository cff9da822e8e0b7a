(** Property theorems: mode arguments of any value.

    Each is closed by the lemma of the same name in Modes_claims.v. *)

From Coq Require Import ZArith QArith List Bool Lia.
From Verif Require Import Machine Raw Ops Fraction Fmath Modes Spec Fmath_spec Mixed_spec.
From Verif Require Import Raw_claims Small_claims Fmath_claims.
Import ListNotations.
Open Scope Z_scope.
From Verif Require Import Modes_claims.

(** C95: the values 0 and 1 of reduce_mode are the two enumerators. *)
Theorem C95_reduce_named : forall t v mode r, wf_rep t -> wf_raw t v -> mode = 0 \/ mode = 1 ->
  reduce_any t v mode = Ok r ->
  same_value (value r) (value v) /\ (value v <> None -> Z.gcd (num r) (den r) = 1 /\ (mode = 0 -> 0 < den r)).
Proof. exact c95_reduce_named. Qed.
Print Assumptions C95_reduce_named.

(** C95: with any other value reduce keeps the value of undefined fractions only;
    it never has undefined behaviour. *)
Theorem C95_reduce_other : forall t v mode, mode <> 0 -> mode <> 1 ->
  exists r, reduce_any t v mode = Ok r /\ value r = None /\ (same_value (value r) (value v) <-> value v = None).
Proof. exact c95_reduce_other. Qed.
Print Assumptions C95_reduce_other.

Theorem C95_reduce_refuted : exists v mode r, wf_raw int32 v /\
  reduce_any int32 v mode = Ok r /\ ~ same_value (value r) (value v).
Proof. exact c95_reduce_refuted. Qed.
Print Assumptions C95_reduce_refuted.

Example c95_reduce_cases :
  map (reduce_any int32 (mkRaw 6 (-4))) [0; 1; 2; -1] = [Ok (mkRaw (-3) 2); Ok (mkRaw 3 (-2)); Ok (mkRaw 0 0); Ok (mkRaw 0 0)].
Proof. vm_compute. reflexivity. Qed.

(** C95: to_whole truncates for the value 0 of round_mode, rounds up for 1 and down
    for 2 and to the nearest for every other. *)
Theorem C95_to_whole : forall o t v mode k, signed_rep t -> wf_raw t v ->
  built_on_safe o = true \/ normalises_inputs o = true \/ 0 < den v ->
  to_whole_any (denote o) t v mode = Ok k ->
  exists q, value v = Some q /\ (~ tiny_negative q ->
    (mode = 0 -> is_trunc k q) /\ (mode = 1 -> is_ceil k q) /\ (mode = 2 -> is_floor k q) /\
    (mode <> 0 -> mode <> 1 -> mode <> 2 -> is_round k q)).
Proof. exact c95_to_whole. Qed.
Print Assumptions C95_to_whole.

Example c95_to_whole_cases :
  map (to_whole_any (denote defaults) int32 (mkRaw (-11) 4)) [0; 1; 2; 3; 4; -1] = [Ok (-2); Ok (-2); Ok (-3); Ok (-3); Ok (-3); Ok (-3)].
Proof. vm_compute. reflexivity. Qed.

(** C95: likewise redenominate rounds to the nearest for every value that is not one
    of the first three enumerators. *)
Theorem C95_redenominate : forall o t v d mode r, wf_rep t -> rsigned t = true -> wf_raw t v ->
  built_on_safe o = true \/ normalises_inputs o = true \/ 0 < den v ->
  in_rep t d = true -> d <> 0 -> mode <> 0 -> mode <> 1 -> mode <> 2 ->
  redenominate_any (denote o) t v d mode = Ok r ->
  exists q v' k, value v = Some q /\ value r = Some v' /\ den r = d /\
    is_over v' k d /\
    (below_minus_half (q * inject_Z d) -> k = 0) /\
    (~ below_minus_half (q * inject_Z d) -> is_round k (q * inject_Z d)).
Proof. exact c95_redenominate. Qed.
Print Assumptions C95_redenominate.

Example c95_redenominate_cases :
  map (redenominate_any (denote defaults) int32 (mkRaw 5 7) 12) [0; 1; 2; 3; 4; -1] =
  [Ok (mkRaw 8 12); Ok (mkRaw 9 12); Ok (mkRaw 8 12); Ok (mkRaw 9 12); Ok (mkRaw 9 12); Ok (mkRaw 9 12)].
Proof. vm_compute. reflexivity. Qed.
