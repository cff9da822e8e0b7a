(** Proofs about limits. *)

From Coq Require Import ZArith QArith Bool Lia Lqa.
From Verif Require Import Machine Raw Ops Spec Fraction Limits.
From Verif Require Import Machine_proofs Value_proofs Fmath_proofs.
Open Scope Z_scope.

Lemma value_int_eq : forall k, exists m, value (f_of_int k) = Some m /\ (m == inject_Z k)%Q.
Proof.
  intros k. exists (inject_Z k / inject_Z 1)%Q. split; [reflexivity|apply qdiv_1].
Qed.

Lemma wf_range : forall t v, wf_raw t v -> rmin t <= num v <= rmax t /\ rmin t <= den v <= rmax t.
Proof. intros t v [A B]. split; now apply in_rep_iff. Qed.

Lemma value_some : forall v q, value v = Some q ->
  den v <> 0 /\ q = (inject_Z (num v) / inject_Z (den v))%Q.
Proof.
  intros v q H. unfold value in H. destruct (Z.eqb_spec (den v) 0); [discriminate|]. inversion H. auto.
Qed.

Lemma limits_lower : forall t v q, wf_rep t -> wf_raw t v -> value v = Some q ->
  (inject_Z (rmin t) <= q)%Q.
Proof.
  intros t v q W A V. apply value_some in V as [D ->]. apply Qle_int_div; auto.
  apply wf_range in A as [A B]. pose proof (rmax_big t W).
  destruct (rsigned t) eqn:S.
  - pose proof (rmin_rmax_signed t S) as R. rewrite R in *. clear R S.
    destruct (Z_lt_ge_dec (den v) 0).
    + assert (num v <= (- rmax t - 1) * den v) by nia. nia.
    + assert ((- rmax t - 1) * den v <= num v) by nia. nia.
  - pose proof (rmin_unsigned t S) as R. rewrite R in *. nia.
Qed.

Lemma limits_upper : forall t v q, wf_rep t -> wf_raw t v -> value v = Some q ->
  ~ (rsigned t = true /\ v = mkRaw (rmin t) (-1)) -> (q <= inject_Z (rmax t))%Q.
Proof.
  intros t v q W A V N. apply value_some in V as [D ->]. apply Qdiv_le_int; auto.
  apply wf_range in A as [A B]. pose proof (rmax_big t W).
  destruct (rsigned t) eqn:S.
  - pose proof (rmin_rmax_signed t S) as R.
    assert (den v = -1 -> num v <> rmin t).
    { intros E E'. apply N. split; auto. destruct v as [n d]. cbn in *. now subst. }
    rewrite R in *. clear R S N.
    destruct (Z_lt_ge_dec (den v) 0).
    + assert (rmax t * den v <= num v).
      { destruct (Z.eq_dec (den v) (-1)) as [E|E]; [rewrite E in *; lia|nia]. }
      nia.
    + assert (num v <= rmax t * den v) by nia. nia.
  - pose proof (rmin_unsigned t S) as R. rewrite R in *.
    assert (num v <= rmax t * den v) by nia. nia.
Qed.

Lemma limits_least_positive : forall t v q, wf_rep t -> wf_raw t v -> value v = Some q -> (0 < q)%Q ->
  ~ (rsigned t = true /\ v = mkRaw (-1) (rmin t)) -> (inject_Z 1 / inject_Z (rmax t) <= q)%Q.
Proof.
  intros t v q W A V P N. apply value_some in V as [D ->].
  change 0%Q with (inject_Z 0) in P. apply Qlt_int_div in P; auto.
  pose proof (rmax_big t W). apply qdiv_le; auto; [lia|].
  apply wf_range in A as [A B].
  assert (X : den v * (rmax t * den v) <= num v * rmax t * (rmax t * den v)); [|lia].
  destruct (rsigned t) eqn:S.
  - pose proof (rmin_rmax_signed t S) as R.
    assert (num v = -1 -> den v <> rmin t).
    { intros E E'. apply N. split; auto. destruct v as [n d]. cbn in *. now subst. }
    rewrite R in *. clear R S N.
    destruct (Z_lt_ge_dec (den v) 0).
    + assert (num v <= -1) by nia.
      assert (num v * rmax t <= den v).
      { destruct (Z.eq_dec (num v) (-1)) as [E|E]; [rewrite E in *; lia|nia]. }
      nia.
    + assert (1 <= num v) by nia. assert (den v <= num v * rmax t) by nia. nia.
  - pose proof (rmin_unsigned t S) as R. rewrite R in *.
    assert (1 <= num v) by nia. assert (den v <= num v * rmax t) by nia. nia.
Qed.

(** The gap above one. *)
Lemma above_one_signed : forall t v q, wf_rep t -> rsigned t = true -> wf_raw t v -> value v = Some q ->
  (1 < q)%Q -> (inject_Z (rmax t + 1) / inject_Z (rmax t) <= q)%Q.
Proof.
  intros t v q W S A V P. apply value_some in V as [D ->].
  change 1%Q with (inject_Z 1) in P. apply Qlt_int_div in P; auto.
  pose proof (rmax_big t W). apply qdiv_le; auto; [lia|].
  apply wf_range in A as [A B]. pose proof (rmin_rmax_signed t S) as R. rewrite R in *. clear R.
  set (M := rmax t) in *. clearbody M.
  assert (X : (M + 1) * den v * (M * den v) <= num v * M * (M * den v)); [|lia].
  destruct (Z_lt_ge_dec (den v) 0).
  - assert (num v <= den v - 1) by nia.
    assert (num v * M <= (M + 1) * den v) by nia. nia.
  - assert (den v + 1 <= num v) by nia.
    assert ((M + 1) * den v <= num v * M) by nia. nia.
Qed.

Lemma above_one_unsigned : forall t v q, wf_rep t -> rsigned t = false -> wf_raw t v -> value v = Some q ->
  (1 < q)%Q -> (inject_Z (rmax t) / inject_Z (rmax t - 1) <= q)%Q.
Proof.
  intros t v q W S A V P. apply value_some in V as [D ->].
  change 1%Q with (inject_Z 1) in P. apply Qlt_int_div in P; auto.
  pose proof (rmax_big t W). apply qdiv_le; auto; [lia|].
  apply wf_range in A as [A B]. pose proof (rmin_unsigned t S) as R. rewrite R in *. clear R.
  set (M := rmax t) in *. clearbody M.
  assert (den v + 1 <= num v) by nia.
  assert (M * den v <= num v * (M - 1)) by nia.
  apply Z.mul_le_mono_nonneg_r; [nia|assumption].
Qed.
