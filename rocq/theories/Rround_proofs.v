(** Lemmas on rounding under policies that keep the signs of their operands (C30). *)

From Coq Require Import ZArith QArith Bool Lia Lqa.
From Verif Require Import Machine Raw Ops Spec Fraction Fmath Fmath_spec Stack_spec Outcome_spec.
From Verif Require Import Machine_proofs Value_proofs Ops_proofs Algebra_proofs Fraction_proofs Fmath_proofs Stack_proofs Outcome_proofs.
Open Scope Z_scope.

(** Reducing divides both parts by the same number, which is positive unless signs are
    normalised. *)
Lemma lowest_scale : forall l v, den v <> 0 -> exists c, num v = c * num (lowest l v) /\ den v = c * den (lowest l v) /\ c <> 0 /\
  (l <> Normalising -> 0 < c) /\ (l = Normalising -> 0 < den (lowest l v)).
Proof.
  intros l v N. pose proof (Z.gcd_nonneg (num v) (den v)) as GN.
  assert (G0 : Z.gcd (num v) (den v) <> 0) by (intros E; apply Z.gcd_eq_0_r in E; contradiction).
  destruct (Z.gcd_divide_l (num v) (den v)) as [a A]. destruct (Z.gcd_divide_r (num v) (den v)) as [b B].
  set (g := Z.gcd (num v) (den v)) in *.
  assert (DA : num v / g = a) by (rewrite A; apply Z.div_mul; auto). assert (DB : den v / g = b) by (rewrite B; apply Z.div_mul; auto).
  assert (OA : num v / - g = - a) by (rewrite A; replace (a * g) with (- a * - g) by ring; apply Z.div_mul; lia).
  assert (OB : den v / - g = - b) by (rewrite B; replace (b * g) with (- b * - g) by ring; apply Z.div_mul; lia).
  unfold lowest. destruct (Z.eqb_spec (den v) 0); [contradiction|]. fold g. destruct l; cbn [num den].
  - exists 1. repeat split; try lia; congruence.
  - exists g. rewrite DA, DB. repeat split; try lia; congruence.
  - destruct (Z.ltb_spec (den v) 0).
    + exists (- g). rewrite OA, OB. repeat split; try lia; try congruence; intros _; nia.
    + exists g. rewrite DA, DB. repeat split; try lia; try congruence; intros _; nia.
Qed.

Lemma scale_value : forall a b c a' b', c <> 0 -> b' <> 0 -> a = c * a' -> b = c * b' ->
  (inject_Z a / inject_Z b == inject_Z a' / inject_Z b')%Q.
Proof. intros a b c a' b' C B -> ->. apply qdiv_eq; auto; nia. Qed.

(** The fraction that round compares with one half. *)
Lemma difference : forall o t v f u, wf_rep t -> rsigned t = true -> wf_raw t v -> den v <> 0 -> in_rep t f = true ->
  p_arith (denote o) t Minus (RI v f) = Ok u ->
  den u <> 0 /\ (inject_Z (num u) / inject_Z (den u) == inject_Z (num v) / inject_Z (den v) - inject_Z f)%Q /\
  (effect (output_modes o) = Normalising -> 0 < den u) /\
  (effect (input_modes o) <> Normalising -> effect (output_modes o) <> Normalising -> 0 < den u * den v).
Proof.
  intros o t v f u W S V N F H. apply arith_outcome in H; [|auto|now split]. destruct H as (RA & x & R & _ & ->).
  destruct (lowest_scale (effect (input_modes o)) v N) as (c & C1 & C2 & C3 & C4 & _).
  set (l := lowest (effect (input_modes o)) v) in *.
  assert (NL : den l <> 0) by (intros E; rewrite E in C2; lia).
  cbn [lowest_args] in R. fold l in R. unfold returns in R. destruct R as (p & q & n & NM & HN & NX & DX).
  unfold numerators, denominator, uses_lcm, holds in *. cbn [two_fractions left_of right_of num den] in *. rewrite andb_false_r, S in *.
  destruct NM as [[-> _] [-> _]]. destruct HN as [-> _]. destruct DX as [DX _].
  assert (N0 : den x <> 0) by (rewrite DX; lia).
  destruct (lowest_scale (effect (output_modes o)) x N0) as (e & E1 & E2 & E3 & E4 & E5).
  set (u := lowest (effect (output_modes o)) x) in *. assert (NU : den u <> 0) by (intros Z0; rewrite Z0 in E2; lia).
  split; auto. split; [|split; auto].
  - rewrite <- (scale_value (num x) (den x) e (num u) (den u) E3 NU E1 E2), NX, DX.
    rewrite (scale_value (num v) (den v) c (num l) (den l) C3 NL C1 C2).
    rewrite Z.mul_1_r. unfold Z.sub. rewrite inject_Z_plus, inject_Z_opp, Z.mul_1_r, inject_Z_mult. field.
    intros Z0. apply NL. exact (proj1 (inject_Z_injective (den l) 0) Z0).
  - intros I O. specialize (C4 I). specialize (E4 O). nia.
Qed.

(** Comparing with one half under policies built on fast that keep signs. *)
Lemma half : forall o t u b, wf_rep t -> rsigned t = true -> wf_raw t u -> den u <> 0 -> on_lcm o = false -> effect (input_modes o) <> Normalising ->
  p_cmp (denote o) t Lt (RR u (mkRaw 1 2)) = Ok b ->
  (0 < den u -> (b = true <-> (inject_Z (num u) / inject_Z (den u) < 1 # 2)%Q)) /\
  (den u < 0 -> (b = true <-> (1 # 2 < inject_Z (num u) / inject_Z (den u))%Q)).
Proof.
  intros o t u b W S V N L I H.
  assert (W12 : wf_raw t (mkRaw 1 2)).
  { unfold wf_raw. cbn [num den]. pose proof (rmax_big t W). split; apply rep_range; auto; unfold rmax in *; rewrite S in *;
      assert (2 ^ 2 <= 2 ^ (rbits t - 1)) by (apply Z.pow_le_mono_r; unfold wf_rep in W; lia); change (2 ^ 2) with 4 in *; lia. }
  apply cmp_outcome in H; [|auto|now split]. destruct H as [_ H]. rewrite L in H.
  destruct (lowest_scale (effect (input_modes o)) u N) as (c & C1 & C2 & C3 & C4 & _). specialize (C4 I).
  assert (E12 : lowest (effect (input_modes o)) (mkRaw 1 2) = mkRaw 1 2) by (destruct (effect (input_modes o)); reflexivity).
  cbn [lowest_args] in H. rewrite E12 in H. set (l := lowest (effect (input_modes o)) u) in *.
  assert (NL : den l <> 0) by (intros E; rewrite E in C2; lia).
  unfold decides, numerators, uses_lcm, holds in H. cbn [two_fractions left_of right_of num den andb] in H.
  destruct (Z.eqb_spec (den l) 0); [contradiction|]. cbn [Z.eqb orb] in H. rewrite S in H.
  destruct H as (p & q & [[-> _] [-> _]] & ->). cbn [int_cmp].
  assert (EV := scale_value (num u) (den u) c (num l) (den l) C3 NL C1 C2). rewrite EV.
  change (1 # 2)%Q with (inject_Z 1 / inject_Z 2)%Q.
  rewrite Z.ltb_lt, !qdiv_lt by lia. split; intros P; nia.
Qed.

Theorem round_output : forall o t v k, wf_rep t -> rsigned t = true -> wf_raw t v ->
  on_lcm o = false -> effect (input_modes o) <> Normalising -> effect (output_modes o) = Normalising ->
  f_round (denote o) t v = Ok k ->
  exists q, value v = Some q /\ (below_minus_half q -> k = 0) /\ (~ below_minus_half q -> is_round k q).
Proof.
  intros o t v k W S V L I O H. unfold f_round in H. inv_bind H. rewrite f_arith_self in E0. rewrite f_cmp_self in E1.
  pose proof (f_floor_in t v a W V E) as FI. destruct (f_floor_spec t v a W V E) as (q & VQ & T & NT).
  assert (N : den v <> 0) by (intros Z0; unfold value in VQ; rewrite Z0 in VQ; discriminate).
  exists q. split; auto. rewrite value_defined in VQ by auto. injection VQ as <-.
  destruct (difference o t v a a0 W S V N FI E0) as (ND & ED & OD & _). specialize (OD O).
  assert (WU : wf_raw t a0) by (apply (arith_wf o t Minus (RI v a)); auto; now split).
  destruct (half o t a0 a1 W S WU ND L I E1) as [HP _]. specialize (HP OD). rewrite ED in HP.
  set (q := (inject_Z (num v) / inject_Z (den v))%Q) in *. clearbody q.
  assert (K : k = if a1 then a else a + 1).
  { destruct a1; [now injection H|]. apply add_holds in H. unfold holds in H. rewrite S in H. tauto. }
  clear H E E0 E1. unfold is_round, below_minus_half, tiny_negative, is_floor in *.
  destruct (tiny_negative_dec q) as [TN|TN]; unfold tiny_negative in TN.
  - specialize (T TN). subst a. change (inject_Z 0) with 0%Q in HP.
    assert (a1 = true) by (apply HP; lra). subst. split; auto. intros NB. change (inject_Z 0) with 0%Q. split; [|lra].
    destruct (Qlt_le_dec q (-1 # 2)) as [Q1|Q1]; [exfalso; apply NB; lra|lra].
  - specialize (NT TN). destruct NT as [N1 N2]. rewrite inject_Z_plus in N2. change (inject_Z 1) with 1%Q in N2. split.
    + intros [B1 B2]. exfalso. apply TN. lra.
    + intros _. destruct a1; subst k.
      * destruct HP as [HP _]. specialize (HP eq_refl). lra.
      * rewrite inject_Z_plus. change (inject_Z 1) with 1%Q.
        assert (~ (q - inject_Z a < 1 # 2)%Q) by (intros X; apply HP in X; discriminate). lra.
Qed.

Theorem round_reversed : forall o t v k, wf_rep t -> rsigned t = true -> wf_raw t v ->
  on_lcm o = false -> effect (input_modes o) <> Normalising -> effect (output_modes o) <> Normalising -> den v < 0 ->
  f_round (denote o) t v = Ok k ->
  exists q f, value v = Some q /\ (tiny_negative q -> f = 0) /\ (~ tiny_negative q -> is_floor f q) /\
    ((q <= inject_Z f + (1 # 2))%Q -> k = f + 1) /\ ((inject_Z f + (1 # 2) < q)%Q -> k = f).
Proof.
  intros o t v k W S V L I O D H. unfold f_round in H. inv_bind H. rewrite f_arith_self in E0. rewrite f_cmp_self in E1.
  pose proof (f_floor_in t v a W V E) as FI. destruct (f_floor_spec t v a W V E) as (q & VQ & T & NT).
  exists q, a. split; auto. split; auto. split; auto. assert (N : den v <> 0) by lia.
  rewrite value_defined in VQ by auto. injection VQ as <-.
  destruct (difference o t v a a0 W S V N FI E0) as (ND & ED & _ & OD). specialize (OD I O).
  assert (WU : wf_raw t a0) by (apply (arith_wf o t Minus (RI v a)); auto; now split).
  destruct (half o t a0 a1 W S WU ND L I E1) as [_ HP]. assert (DU : den a0 < 0) by nia. specialize (HP DU). rewrite ED in HP.
  set (q := (inject_Z (num v) / inject_Z (den v))%Q) in *. clearbody q.
  destruct a1.
  - injection H as <-. assert (HQ : (1 # 2 < q - inject_Z a)%Q) by now apply HP. split; intros X; [exfalso; lra|auto].
  - apply add_holds in H. unfold holds in H. rewrite S in H. destruct H as [-> _]. split; auto. intros X.
    assert (false = true) by (apply HP; lra). discriminate.
Qed.
