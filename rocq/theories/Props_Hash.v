(** Property theorems: hashing.

    Each is closed by the lemma of the same name in Hash_claims.v. *)

From Coq Require Import ZArith QArith List Bool Lia.
From Verif Require Import Machine Raw Ops Spec Fraction Mixed Mixed_spec Hash.
From Verif Require Import Machine_proofs Value_proofs Ops_proofs Cmp_claims Limits_proofs Literals_proofs Mixed_proofs Hash_proofs.
Import ListNotations.
Open Scope Z_scope.
From Verif Require Import Hash_claims.

(** C46: fractions in canonical form that compare equal have equal hashes, for
    every std::hash<Rep>; so have the reductions of any two equal fractions. *)
Theorem C46_canonical_consistent_partial : forall h o t a b,
  wf_rep t -> rsigned t = true -> wf_raw t a -> wf_raw t b -> canonical a -> canonical b ->
  p_cmp (denote o) t Eq (RR a b) = Ok true -> hash_raw h a = hash_raw h b.
Proof. exact c46_canonical_consistent_partial. Qed.
Print Assumptions C46_canonical_consistent_partial.

Theorem C46_reduced_consistent_partial : forall h o t a b ra rb,
  wf_rep t -> rsigned t = true -> wf_raw t a -> wf_raw t b ->
  p_cmp (denote o) t Eq (RR a b) = Ok true ->
  reduce t a normalize_signs_mode = Ok ra -> reduce t b normalize_signs_mode = Ok rb ->
  hash_raw h ra = hash_raw h rb.
Proof. exact c46_reduced_consistent_partial. Qed.
Print Assumptions C46_reduced_consistent_partial.

(** C46 is false in general: with the standard library's hash of integers,
    1/2 == 2/4 but their hashes differ. *)
Theorem C46_hash_refuted : exists a b,
  wf_raw int32 a /\ wf_raw int32 b /\ p_cmp (denote defaults) int32 Eq (RR a b) = Ok true /\
  hash_raw std_hash a <> hash_raw std_hash b.
Proof. exact c46_hash_refuted. Qed.
Print Assumptions C46_hash_refuted.

(** C46: the failure is not special to that hash: no std::hash<int> that tells
    1 from 4 is consistent, so no injective one is. *)
Theorem C46_any_injective_hash_refuted : forall h, h 1 <> h 4 -> exists a b,
  wf_raw int32 a /\ wf_raw int32 b /\ p_cmp (denote defaults) int32 Eq (RR a b) = Ok true /\
  hash_raw h a <> hash_raw h b.
Proof. exact c46_any_injective_hash_refuted. Qed.
Print Assumptions C46_any_injective_hash_refuted.

Example C46_nonvacuous :
  canonical (mkRaw 1 2) /\ p_cmp (denote defaults) int32 Eq (RR (mkRaw 1 2) (mkRaw 1 2)) = Ok true /\
  reduce int32 (mkRaw (-2) (-4)) normalize_signs_mode = Ok (mkRaw 1 2).
Proof. repeat split. right. split; reflexivity. Qed.

(** C62: mixed numbers in normal form with canonical fractional parts are equal
    in value exactly when they are identical, so their hashes agree. *)
Theorem C62_mixed_hash : forall hw hf a b,
  normal_form a -> normal_form b -> canonical (fractional a) -> canonical (fractional b) ->
  same_value (mixed_value a) (mixed_value b) -> a = b /\ hash_mixed hw hf a = hash_mixed hw hf b.
Proof. exact c62_mixed_hash. Qed.
Print Assumptions C62_mixed_hash.

(** C62: so mixed numbers computed in different ways, of equal value, have equal
    hashes when their fractional parts are canonical. *)
Theorem C62_computed_hash : forall hw hf o1 o2 e1 e2 m1 m2,
  wf_mexpr e1 -> wf_mexpr e2 -> meval (denote o1) e1 = Ok m1 -> meval (denote o2) e2 = Ok m2 ->
  canonical (fractional m1) -> canonical (fractional m2) ->
  same_value (mdenotes e1) (mdenotes e2) -> hash_mixed hw hf m1 = hash_mixed hw hf m2.
Proof. exact c62_computed_hash. Qed.
Print Assumptions C62_computed_hash.

Example C62_nonvacuous :
  meval (denote defaults) (MPlus (MMake int32 int32 1 (mkRaw 1 2)) (MMake int32 int32 0 (mkRaw 3 4)))
    = Ok (mkMixed 2 (mkRaw 1 4)) /\
  meval (denote defaults) (MOfFraction int32 (mkRaw 9 4)) = Ok (mkMixed 2 (mkRaw 1 4)).
Proof. repeat split. Qed.

(** C100: with the standard library's hash of integers, fractions with the same denominator
    have equal hashes exactly when they are identical; with the same numerator, exactly when
    their denominators agree modulo 2^63, so for up to 63 bits when they are identical. *)
Theorem C100_fraction_hash : forall t n1 n2 d1 d2, wf_rep t -> rbits t <= 64 ->
  wf_raw t (mkRaw n1 d1) -> wf_raw t (mkRaw n2 d2) ->
  (hash_raw std_hash (mkRaw n1 d1) = hash_raw std_hash (mkRaw n2 d1) <-> n1 = n2) /\
  (hash_raw std_hash (mkRaw n1 d1) = hash_raw std_hash (mkRaw n1 d2) <-> d1 mod 2 ^ 63 = d2 mod 2 ^ 63) /\
  (rbits t <= 63 -> hash_raw std_hash (mkRaw n1 d1) = hash_raw std_hash (mkRaw n1 d2) <-> d1 = d2).
Proof. exact c100_fraction_hash. Qed.
Print Assumptions C100_fraction_hash.

(** C100: and the hash of a mixed number changes with each of its three parts: up to 64 bits
    for the whole part, modulo 2^63 and 2^62 for the numerator and the denominator. *)
Theorem C100_mixed_hash : forall t w1 w2 n1 n2 d1 d2, wf_rep t -> rbits t <= 64 ->
  in_rep t w1 = true -> in_rep t w2 = true ->
  (hash_mixed std_hash std_hash (mkMixed w1 (mkRaw n1 d1)) = hash_mixed std_hash std_hash (mkMixed w2 (mkRaw n1 d1)) <->
   w1 = w2) /\
  (hash_mixed std_hash std_hash (mkMixed w1 (mkRaw n1 d1)) = hash_mixed std_hash std_hash (mkMixed w1 (mkRaw n2 d1)) <->
   n1 mod 2 ^ 63 = n2 mod 2 ^ 63) /\
  (hash_mixed std_hash std_hash (mkMixed w1 (mkRaw n1 d1)) = hash_mixed std_hash std_hash (mkMixed w1 (mkRaw n1 d2)) <->
   d1 mod 2 ^ 62 = d2 mod 2 ^ 62).
Proof. exact c100_mixed_hash. Qed.
Print Assumptions C100_mixed_hash.

(** C100: for every fraction and every other denominator there is exactly one 64-bit
    numerator that gives the same hash. *)
Theorem C100_one_collision : forall v d, exists n,
  in_rep uint64 n = true /\ hash_raw std_hash (mkRaw n d) = hash_raw std_hash v /\
  forall n', in_rep uint64 n' = true -> hash_raw std_hash (mkRaw n' d) = hash_raw std_hash v -> n' = n.
Proof. exact c100_one_collision. Qed.
Print Assumptions C100_one_collision.

Example C100_case :
  (* 1 and 5/3 collide, as do 1 1/2 and 5 1/3; 1/2 and 1/(2 + 2^63) in unsigned 64 bits *)
  canonical (mkRaw 1 1) /\ canonical (mkRaw 5 3) /\
  hash_raw std_hash (mkRaw 1 1) = 3 /\ hash_raw std_hash (mkRaw 5 3) = 3 /\
  hash_raw std_hash (mkRaw 1 2) = 5 /\ hash_raw std_hash (mkRaw 1 (2 + 2 ^ 63)) = 5 /\
  hash_mixed std_hash std_hash (mkMixed 1 (mkRaw 1 2)) = 11 /\
  hash_mixed std_hash std_hash (mkMixed 5 (mkRaw 1 3)) = 11.
Proof. split; [right; split; reflexivity|]. split; [right; split; reflexivity|]. repeat split. Qed.
