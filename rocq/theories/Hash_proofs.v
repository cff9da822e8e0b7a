(** Lemmas on the combination of hashes. *)

From Coq Require Import ZArith Bool Lia.
From Verif Require Import Machine Raw Spec Mixed Hash.
From Verif Require Import Machine_proofs.
Open Scope Z_scope.

Lemma lxor_eq_l : forall a x y, Z.lxor a x = Z.lxor a y <-> x = y.
Proof.
  intros a x y. split; [|congruence]. intros H.
  rewrite <- (Z.lxor_0_l x), <- (Z.lxor_0_l y), <- (Z.lxor_nilpotent a), !Z.lxor_assoc. now f_equal.
Qed.

Lemma lxor_eq_r : forall a x y, Z.lxor x a = Z.lxor y a <-> x = y.
Proof. intros a x y. rewrite (Z.lxor_comm x), (Z.lxor_comm y). apply lxor_eq_l. Qed.

Lemma mod_close : forall m x y, 0 < m -> Z.abs (x - y) < m -> x mod m = y mod m -> x = y.
Proof.
  intros m x y M A H. pose proof (Z.div_mod x m ltac:(lia)) as X. pose proof (Z.div_mod y m ltac:(lia)) as Y.
  assert (x / m = y / m) by nia. nia.
Qed.

Lemma rep_close : forall t k x y, wf_rep t -> rbits t <= k -> in_rep t x = true -> in_rep t y = true ->
  Z.abs (x - y) < 2 ^ k.
Proof.
  intros t k x y W B X Y. apply in_rep_iff in X. apply in_rep_iff in Y. unfold wf_rep, rmin, rmax in *.
  pose proof (Z.pow_le_mono_r 2 (rbits t) k ltac:(lia) B).
  pose proof (Z.pow_succ_r 2 (rbits t - 1) ltac:(lia)) as P. replace (Z.succ (rbits t - 1)) with (rbits t) in P by lia.
  destruct (rsigned t); lia.
Qed.

Lemma std_hash_inj : forall t x y, wf_rep t -> rbits t <= 64 -> in_rep t x = true -> in_rep t y = true ->
  std_hash x = std_hash y -> x = y.
Proof.
  intros t x y W B X Y H. apply (mod_close (2 ^ 64)); [reflexivity|now apply (rep_close t)|exact H].
Qed.

Lemma mod_inj : forall t x y, wf_rep t -> rbits t <= 63 -> in_rep t x = true -> in_rep t y = true ->
  x mod 2 ^ 63 = y mod 2 ^ 63 -> x = y.
Proof.
  intros t x y W B X Y H. apply (mod_close (2 ^ 63)); [reflexivity|now apply (rep_close t)|exact H].
Qed.

(** Shifting left by one in std::size_t. *)
Lemma shl1 : forall x, wrap uint64 (x * 2) = x mod 2 ^ 63 * 2.
Proof.
  intros x. unfold wrap, uint64. cbn [rsigned rbits]. change (2 ^ 64) with (2 ^ 63 * 2).
  apply Z.mul_mod_distr_r; discriminate.
Qed.

Lemma shl1_hash : forall x, wrap uint64 (std_hash x * 2) = x mod 2 ^ 63 * 2.
Proof.
  intros x. rewrite shl1. f_equal. unfold std_hash, cast, wrap, uint64. cbn [rsigned rbits].
  change (2 ^ 64) with (2 ^ 63 * 2). rewrite Z.rem_mul_r by reflexivity || discriminate.
  rewrite Z.mul_comm, Z.mod_add by discriminate. apply Z.mod_mod. discriminate.
Qed.

Lemma lxor_mod : forall k a b, 0 <= k -> (Z.lxor a b) mod 2 ^ k = Z.lxor (a mod 2 ^ k) (b mod 2 ^ k).
Proof.
  intros k a b K. apply Z.bits_inj'. intros n N. rewrite Z.lxor_spec.
  destruct (Z.ltb_spec n k).
  - rewrite !Z.mod_pow2_bits_low by lia. apply Z.lxor_spec.
  - rewrite !Z.mod_pow2_bits_high by lia. reflexivity.
Qed.

Lemma lxor_double : forall a b, Z.lxor a b * 2 = Z.lxor (a * 2) (b * 2).
Proof.
  intros a b. change 2 with (2 ^ 1). rewrite <- !Z.shiftl_mul_pow2 by lia. apply Z.shiftl_lxor.
Qed.

Lemma shl1_xor : forall a b, wrap uint64 (Z.lxor a b * 2) = Z.lxor (wrap uint64 (a * 2)) (wrap uint64 (b * 2)).
Proof. intros a b. rewrite !shl1, lxor_mod by lia. apply lxor_double. Qed.

Lemma shl1_shl1_hash : forall x, wrap uint64 (wrap uint64 (std_hash x * 2) * 2) = x mod 2 ^ 62 * 4.
Proof.
  intros x. rewrite (shl1_hash x), shl1. change (2 ^ 63) with (2 ^ 62 * 2).
  rewrite Z.mul_mod_distr_r by discriminate. rewrite Z.rem_mul_r by reflexivity || discriminate.
  rewrite (Z.mul_comm (2 ^ 62)), Z.mod_add, Z.mod_mod by discriminate. ring.
Qed.

Lemma hash_range : forall v, 0 <= hash_raw std_hash v < 2 ^ 64.
Proof.
  intros v. unfold hash_raw, hash_combine. rewrite shl1_hash.
  set (a := std_hash (num v)). set (b := den v mod 2 ^ 63 * 2).
  assert (A : a = a mod 2 ^ 64) by (unfold a, std_hash, cast, wrap, uint64; cbn [rsigned rbits]; now rewrite Z.mod_mod).
  assert (B : b = b mod 2 ^ 64).
  { unfold b. change (2 ^ 64) with (2 ^ 63 * 2). now rewrite Z.mul_mod_distr_r, Z.mod_mod by discriminate. }
  rewrite A, B, <- lxor_mod by lia. apply Z.mod_pos_bound. reflexivity.
Qed.

Theorem one_collision : forall v d, exists n,
  in_rep uint64 n = true /\ hash_raw std_hash (mkRaw n d) = hash_raw std_hash v /\
  forall n', in_rep uint64 n' = true -> hash_raw std_hash (mkRaw n' d) = hash_raw std_hash v -> n' = n.
Proof.
  intros v d. set (s := wrap uint64 (std_hash d * 2)). set (n := Z.lxor (hash_raw std_hash v) s).
  assert (R : 0 <= n < 2 ^ 64).
  { pose proof (hash_range v) as H.
    assert (B : 0 <= s < 2 ^ 64) by (apply Z.mod_pos_bound; reflexivity).
    unfold n. rewrite <- (Z.mod_small _ _ H), <- (Z.mod_small _ _ B), <- lxor_mod by lia.
    apply Z.mod_pos_bound. reflexivity. }
  assert (I : forall m, 0 <= m < 2 ^ 64 -> std_hash m = m) by (intros m M; apply Z.mod_small; exact M).
  exists n. split; [apply in_rep_iff; unfold rmin, rmax; cbn [uint64 rsigned rbits]; lia|].
  unfold hash_raw at 1 3, hash_combine. cbn [num den]. fold s. split.
  - rewrite (I n R). unfold n. now rewrite Z.lxor_assoc, Z.lxor_nilpotent, Z.lxor_0_r.
  - intros n' N H. apply in_rep_iff in N. unfold rmin, rmax in N. cbn [uint64 rsigned rbits] in N.
    rewrite I in H by lia. unfold n. rewrite <- H. now rewrite Z.lxor_assoc, Z.lxor_nilpotent, Z.lxor_0_r.
Qed.
