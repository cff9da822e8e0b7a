(** Proofs for C86: duration::zero, min and max. *)

From Coq Require Import ZArith QArith List Bool Lia Lqa.
From Verif Require Import Machine Raw Ops Spec Fraction Limits Chrono Chrono_spec Chrono2 Mixed_spec Defined_spec Chrono3_spec.
From Verif Require Import Machine_proofs Value_proofs Ops_proofs Algebra_proofs Fraction_proofs Fmath_proofs
  Limits_proofs Literals_proofs Mixed_proofs Tight_proofs Chrono_proofs Chrono2_proofs Defined_proofs Defined2_proofs Chrono3_proofs.
Import ListNotations.
Open Scope Z_scope.

Lemma same_period : forall p, wf_period p -> common_period p p = Some p /\ is_factor p p 1 1.
Proof.
  intros [n d] [[N [D G]] [I J]]. cbn [pnum pden] in *. split.
  - unfold common_period. cbn [pnum pden]. rewrite Z.gcd_diag_nonneg, Z.lcm_diag_nonneg by lia. unfold make_ratio.
    rewrite G, !Z.div_1_r, I, J. reflexivity.
  - unfold is_factor. split; [vm_compute; intuition discriminate|]. split; [vm_compute; intuition discriminate|]. split; [reflexivity|].
    unfold period_value. cbn [pnum pden]. change (inject_Z 1) with 1%Q. field. split; apply iz_nz; lia.
Qed.

Lemma zero_low : low_num (inject_Z 0) = 0 /\ low_den (inject_Z 0) = 1.
Proof. apply low_int. Qed.

Section Same.

  Variables (t : rep) (pd : period) (c : count) (q : Q).
  Hypothesis SR : signed_rep t.
  Hypothesis WP : wf_period pd.
  Hypothesis BC : count_bounded (rmax t) c.
  Hypothesis VC : count_value c = Some q.

  Lemma int_count : forall z, Z.abs z <= rmax t -> count_bounded (rmax t) (FracCount (f_of_int z)) /\
    exists p, count_value (FracCount (f_of_int z)) = Some p /\ (p == inject_Z z)%Q.
  Proof.
    intros z B. pose proof (rmax_big t (proj1 SR)). split; [split; cbn; lia|]. destruct (int_value z) as [p [V E]]. exists p. auto.
  Qed.

  Lemma low_q : Z.abs (low_num q) <= rmax t /\ low_den q <= rmax t.
  Proof.
    destruct (to_cr_bounded t c q SR BC VC) as [BK [k [VK QK]]]. destruct (low_proper _ _ QK) as [<- <-].
    now apply (low_bounded t (to_cr t c)).
  Qed.

  Lemma one_scale : forall a, (a * inject_Z 1 == a)%Q.
  Proof. intros a. change (inject_Z 1) with 1%Q. ring. Qed.

  Lemma with_int_cmp : forall z, Z.abs z <= rmax t ->
    ((exists v, duration_lt (denote defaults) t pd pd c (FracCount (f_of_int z)) = Some (Ok v)) <-> - rmax t - 1 <= z * low_den q <= rmax t) /\
    ((exists v, duration_lt (denote defaults) t pd pd (FracCount (f_of_int z)) c = Some (Ok v)) <-> - rmax t - 1 <= z * low_den q <= rmax t).
  Proof.
    intros z Bz. destruct (int_count z Bz) as [BZ [p [VZ QZ]]]. destruct (same_period pd WP) as [CP F].
    pose proof (rmax_big t (proj1 SR)) as RB. destruct low_q as [LN LD]. pose proof (low_den_pos q) as PD.
    destruct (low_proper _ _ QZ) as [Z1 Z2]. destruct (low_int z) as [Z3 Z4]. rewrite Z3 in Z1. rewrite Z4 in Z2.
    destruct (over_int_r q z) as [O1 [O2 O3]]. destruct (over_int_l q z) as [P1 [P2 P3]].
    split.
    - rewrite (two_lt_iff t pd pd pd c (FracCount (f_of_int z)) q p 1 1) by (auto; lia).
      rewrite (common_fits_proper (rmax t) _ q _ (inject_Z z)) by (rewrite one_scale; auto; reflexivity).
      unfold common_fits. rewrite O2, O3, O1, Z1. lia.
    - rewrite (two_lt_iff t pd pd pd (FracCount (f_of_int z)) c p q 1 1) by (auto; lia).
      rewrite (common_fits_proper (rmax t) _ (inject_Z z) _ q) by (rewrite one_scale; auto; reflexivity).
      unfold common_fits. rewrite P2, P3, P1, Z1. lia.
  Qed.

  Lemma plus_zero_total : exists x, duration_arith (denote defaults) t Plus pd pd c (FracCount duration_zero) = Some (pd, Ok x).
  Proof.
    pose proof (rmax_big t (proj1 SR)) as RB. unfold duration_zero.
    destruct (int_count 0 ltac:(cbn; lia)) as [BZ [p [VZ QZ]]]. destruct (same_period pd WP) as [CP F].
    destruct low_q as [LN LD]. pose proof (low_den_pos q) as PD.
    destruct (low_proper _ _ QZ) as [Z1 Z2]. destruct zero_low as [Z3 Z4]. rewrite Z3 in Z1. rewrite Z4 in Z2.
    destruct (over_int_r q 0) as [O1 [O2 O3]].
    apply (two_arith_iff t pd pd pd c (FracCount (f_of_int 0)) q p 1 1); auto; try lia.
    rewrite Z1. split; [lia|]. split; [cbn; lia|].
    apply (enough_proper (rmax t) Plus _ q _ (inject_Z 0)); [apply one_scale|rewrite one_scale; auto|].
    unfold enough, common_fits. rewrite O2, O3, O1. lia.
  Qed.

End Same.

(** The minimum value cannot be reduced, so nothing compares with it. *)
Lemma reduce_min_ub : forall t m, signed_rep t -> reduce t (f_of_int (rmin t)) m = UB LibPrecond.
Proof.
  intros t m [W S].
  assert (I : in_rep t (Z.abs (rmin t)) = false).
  { apply not_true_is_false. intros H. apply in_rep_iff in H. rewrite (rmin_rmax_signed t S) in H. pose proof (rmax_big t W). lia. }
  assert (G : reduce_ignore_signs t (f_of_int (rmin t)) = UB LibPrecond).
  { unfold reduce_ignore_signs, is_undefined, f_of_int, std_gcd. cbn [num den]. rewrite I. reflexivity. }
  destruct m; unfold reduce; auto. unfold reduce_normalize_signs. now rewrite G.
Qed.

Lemma min_ub : forall t pd c, signed_rep t -> wf_period pd ->
  (exists u, duration_lt (denote defaults) t pd pd c (FracCount (duration_min t)) = Some (UB u)) /\
  (exists u, duration_lt (denote defaults) t pd pd (FracCount (duration_min t)) c = Some (UB u)).
Proof.
  intros t pd c SR WP. destruct (same_period pd WP) as [CP F].
  assert (HC : forall k, duration_cast (denote defaults) t pd pd k = Some (Ok (to_cr t k))).
  { intros k. unfold duration_cast. rewrite (ratio_divide_is _ _ _ _ WP WP F). reflexivity. }
  unfold duration_lt. rewrite CP, !HC. cbn [bind to_cr]. rewrite !f_cmp_self, !io_cmp_rr. unfold duration_min, nl_lowest, limits_min.
  rewrite reduce_min_ub by auto. split; destruct (reduce t (to_cr t c) ignore_signs_mode); cbn [bind]; eauto.
Qed.
