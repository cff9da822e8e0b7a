(** Proofs of the statements in Props_Limits.v. *)

From Coq Require Import ZArith QArith List Bool Lia Lqa.
From Verif Require Import Machine Raw Ops Spec Fraction Limits.
From Verif Require Import Machine_proofs Value_proofs Fmath_proofs Cmp_claims Limits_proofs.
Import ListNotations.
Open Scope Z_scope.

Lemma c49_min_bounds : forall t v q,
  wf_rep t -> wf_raw t v -> value v = Some q ->
  exists m, value (limits_min t) = Some m /\ (m <= q)%Q.
Proof.
  intros t v q W A V. destruct (value_int_eq (rmin t)) as [m [E M]]. exists m. split; auto.
  rewrite M. eapply limits_lower; eauto.
Qed.

Lemma c49_max_bounds_partial : forall t v q,
  wf_rep t -> wf_raw t v -> value v = Some q ->
  ~ (rsigned t = true /\ v = mkRaw (rmin t) (-1)) ->
  exists m, value (limits_max t) = Some m /\ (q <= m)%Q.
Proof.
  intros t v q W A V N. destruct (value_int_eq (rmax t)) as [m [E M]]. exists m. split; auto.
  rewrite M. eapply limits_upper; eauto.
Qed.

Lemma c49_smallest_partial : forall t v q,
  wf_rep t -> wf_raw t v -> value v = Some q -> (0 < q)%Q ->
  ~ (rsigned t = true /\ v = mkRaw (-1) (rmin t)) ->
  exists s, value (limits_smallest t) = Some s /\ (0 < s <= q)%Q.
Proof.
  intros t v q W A V P N. pose proof (rmax_big t W).
  exists (inject_Z 1 / inject_Z (rmax t))%Q.
  split; [|split].
  - unfold limits_smallest. rewrite value_defined; [reflexivity|cbn; lia].
  - change 0%Q with (inject_Z 0). apply Qlt_int_div; lia.
  - eapply limits_least_positive; eauto.
Qed.

Lemma c49_limits_are_values : forall t, wf_rep t ->
  wf_raw t (limits_min t) /\ wf_raw t (limits_max t) /\ wf_raw t (limits_smallest t).
Proof.
  intros t W. pose proof (rmax_big t W). pose proof (rmin_nonpos t W).
  repeat split; cbn; apply in_rep_iff; lia.
Qed.

Lemma c49_max_refuted : forall t, wf_rep t -> rsigned t = true ->
  exists v q m, wf_raw t v /\ value v = Some q /\ value (limits_max t) = Some m /\ (m < q)%Q.
Proof.
  intros t W S. pose proof (rmax_big t W). pose proof (rmin_rmax_signed t S).
  exists (mkRaw (rmin t) (-1)), (inject_Z (rmin t) / inject_Z (-1))%Q.
  destruct (value_int_eq (rmax t)) as [m [E M]]. exists m. repeat split; auto.
  - cbn. apply in_rep_iff. lia.
  - cbn. apply in_rep_iff. lia.
  - rewrite M. apply Qlt_int_div; lia.
Qed.

Lemma c49_smallest_refuted : forall t, wf_rep t -> rsigned t = true ->
  exists v q s, wf_raw t v /\ value v = Some q /\ value (limits_smallest t) = Some s /\ (0 < q < s)%Q.
Proof.
  intros t W S. pose proof (rmax_big t W). pose proof (rmin_rmax_signed t S).
  exists (mkRaw (-1) (rmin t)), (inject_Z (-1) / inject_Z (rmin t))%Q, (inject_Z 1 / inject_Z (rmax t))%Q.
  repeat split.
  - cbn. apply in_rep_iff. lia.
  - cbn. apply in_rep_iff. lia.
  - rewrite value_defined; [reflexivity|cbn; lia].
  - unfold limits_smallest. rewrite value_defined; [reflexivity|cbn; lia].
  - change 0%Q with (inject_Z 0). apply Qlt_int_div; [lia|]. rewrite H0. nia.
  - apply qdiv_lt; try lia. rewrite H0. nia.
Qed.

Lemma c49_operators_agree : forall o t v b,
  wf_rep t -> rsigned t = true -> wf_raw t v -> value v <> None ->
  built_on_safe o = true \/ normalises_inputs o = true ->
  (p_cmp (denote o) t Le (RR (limits_min t) v) = Ok b -> b = true) /\
  (v <> mkRaw (rmin t) (-1) -> p_cmp (denote o) t Le (RR v (limits_max t)) = Ok b -> b = true).
Proof.
  intros o t v b W S A V O. destruct (value v) as [q|] eqn:Q; [clear V|congruence].
  destruct (c49_limits_are_values t W) as [L1 [L2 L3]]. split.
  - intros H. destruct (c49_min_bounds t v q W A Q) as [m [E M]].
    apply (c13_order_exact o t (limits_min t) v b m q Le); auto.
  - intros N H. destruct (c49_max_bounds_partial t v q W A Q) as [m [E M]]; [tauto|].
    apply (c13_order_exact o t v (limits_max t) b q m Le); auto.
Qed.

Lemma c50_epsilon_signed_partial : forall t, wf_rep t -> rsigned t = true ->
  exists e, value (nl_epsilon t) = Some e /\ (0 < e)%Q /\
  (forall v q, wf_raw t v -> value v = Some q -> (1 < q)%Q -> (1 + e <= q)%Q) /\
  (exists v q, wf_raw t v /\ value v = Some q /\ (q == 1 + e)%Q).
Proof.
  intros t W S. pose proof (rmax_big t W). pose proof (rmin_rmax_signed t S).
  exists (inject_Z 1 / inject_Z (rmax t))%Q.
  assert (E : (1 + inject_Z 1 / inject_Z (rmax t) == inject_Z (rmax t + 1) / inject_Z (rmax t))%Q).
  { rewrite inject_Z_plus. field. apply iz_nz. lia. }
  repeat split.
  - unfold nl_epsilon, limits_smallest. rewrite value_defined; [reflexivity|cbn; lia].
  - change 0%Q with (inject_Z 0). apply Qlt_int_div; lia.
  - intros v q A V P. rewrite E. eapply above_one_signed; eauto.
  - exists (mkRaw (rmin t) (- rmax t)), (inject_Z (rmin t) / inject_Z (- rmax t))%Q. repeat split.
    + cbn. apply in_rep_iff. lia.
    + cbn. apply in_rep_iff. lia.
    + rewrite value_defined; [reflexivity|cbn; lia].
    + rewrite E. apply qdiv_eq; lia.
Qed.

Lemma c50_epsilon_unsigned_refuted : forall t, wf_rep t -> rsigned t = false ->
  exists e gap, value (nl_epsilon t) = Some e /\ (e < gap)%Q /\
  (forall v q, wf_raw t v -> value v = Some q -> (1 < q)%Q -> (1 + gap <= q)%Q) /\
  (exists v q, wf_raw t v /\ value v = Some q /\ (q == 1 + gap)%Q).
Proof.
  intros t W S. pose proof (rmax_big t W). pose proof (rmin_unsigned t S).
  exists (inject_Z 1 / inject_Z (rmax t))%Q, (inject_Z 1 / inject_Z (rmax t - 1))%Q.
  assert (E : (1 + inject_Z 1 / inject_Z (rmax t - 1) == inject_Z (rmax t) / inject_Z (rmax t - 1))%Q).
  { replace (rmax t) with (rmax t - 1 + 1) at 2 by lia. rewrite inject_Z_plus. field. apply iz_nz. lia. }
  repeat split.
  - unfold nl_epsilon, limits_smallest. rewrite value_defined; [reflexivity|cbn; lia].
  - apply qdiv_lt; try lia. nia.
  - intros v q A V P. rewrite E. eapply above_one_unsigned; eauto.
  - exists (mkRaw (rmax t) (rmax t - 1)), (inject_Z (rmax t) / inject_Z (rmax t - 1))%Q. repeat split.
    + cbn. apply in_rep_iff. lia.
    + cbn. apply in_rep_iff. lia.
    + rewrite value_defined; [reflexivity|cbn; lia].
    + now rewrite E.
Qed.

