(** Proofs about pairs of floating-point conversions, and about fractions that
    survive a conversion to floating point and back. *)

From Coq Require Import ZArith QArith Qabs Qreduction Qpower Qreals Reals Lia Lra Psatz.
From Flocq Require Import Core Relative.
From Flocq Require Import IEEE754.BinarySingleNaN.
From Flocq Require Import IEEE754.Binary IEEE754.Bits.
From Verif Require Import Machine Raw Ops Spec Fraction Fmath Float Float_spec Float3_spec Mixed_spec.
From Verif Require Import Machine_proofs Value_proofs Ops_proofs Algebra_proofs Fraction_proofs Tight_proofs Float_proofs Float2_proofs.
Open Scope Z_scope.

Lemma Q2R_zero : Q2R 0 = 0%R.
Proof. unfold Q2R; cbn; lra. Qed.

Section Format.
Variables prec emax : Z.
Variable Hprec : Prec_gt_0 prec.
Variable Hmax : Prec_lt_emax prec emax.
Variable nan : { x : binary_float prec emax | is_nan prec emax x = true }.
Let float := binary_float prec emax.
Let emin := 3 - emax - prec.
Let fexp := FLT_exp emin prec.
Let rnd := round radix2 fexp ZnearestE.
Let cv (t : rep) (v : raw) := conv prec emax Hprec Hmax nan t v.

Local Instance valid_fexp3 : Valid_exp fexp := FLT_exp_valid emin prec.
Local Instance valid_rnd3 : Valid_rnd ZnearestE := valid_rnd_N _.

Lemma cv_value : forall t v q, wf_rep t -> symmetric t v -> rmax t <= 2 ^ (emax - 1) -> value v = Some q ->
  exists x qx, cv t v = Ok x /\ float_value x = Some qx /\ is_finite prec emax x = true /\ B2R prec emax x = Q2R qx /\
    Q2R qx = rnd (rnd (IZR (Qnum (Qred q))) / rnd (IZR (Zpos (Qden (Qred q))))).
Proof.
  intros t v q W [WV [N D]] M V.
  destruct (conv_shape prec emax Hprec Hmax nan t v q W WV N D M V) as [x [X1 [X2 [X3 _]]]].
  destruct (finite_value prec emax x X2) as [qx QX]. destruct (float_value_R prec emax x qx QX) as [RX _].
  exists x, qx. repeat split; auto. now rewrite <- RX.
Qed.

Lemma cv_exact : forall q, short_parts prec q ->
  rnd (rnd (IZR (Qnum (Qred q))) / rnd (IZR (Zpos (Qden (Qred q))))) = rnd (Q2R q).
Proof.
  intros q [N D]. unfold rnd, fexp, emin.
  rewrite (int_exact prec emax Hprec Hmax _ N), (int_exact prec emax Hprec Hmax _ D). now rewrite <- Q2R_red.
Qed.

Theorem cv_monotone : forall t v w p q, wf_rep t -> symmetric t v -> symmetric t w -> rmax t <= 2 ^ (emax - 1) ->
  value v = Some p -> value w = Some q -> short_parts prec p -> short_parts prec q -> (p <= q)%Q ->
  converted (cv t) v w Qle.
Proof.
  intros t v w p q W SV SW M V V' P Q L.
  destruct (cv_value t v p W SV M V) as [x [px [X1 [X2 [_ [_ X3]]]]]].
  destruct (cv_value t w q W SW M V') as [y [qy [Y1 [Y2 [_ [_ Y3]]]]]].
  exists x, y, px, qy. repeat split; auto. apply Rle_Qle. rewrite X3, Y3, !cv_exact by auto.
  apply round_le; [apply valid_fexp3|apply valid_rnd3|]. now apply Qle_Rle.
Qed.

Theorem cv_opposite : forall t v w p q, wf_rep t -> symmetric t v -> symmetric t w -> rmax t <= 2 ^ (emax - 1) ->
  value v = Some p -> value w = Some q -> (q == - p)%Q ->
  converted (cv t) v w (fun a b => b == - a)%Q.
Proof.
  intros t v w p q W SV SW M V V' E.
  destruct (cv_value t v p W SV M V) as [x [px [X1 [X2 [_ [_ X3]]]]]].
  destruct (cv_value t w q W SW M V') as [y [qy [Y1 [Y2 [_ [_ Y3]]]]]].
  exists x, y, px, qy. repeat split; auto. apply eqR_Qeq. rewrite Q2R_opp, X3, Y3.
  rewrite (Qred_complete _ _ E), Qred_opp. cbn [Qopp Qnum Qden]. rewrite opp_IZR.
  unfold rnd. rewrite round_NE_opp. unfold Rdiv. rewrite Ropp_mult_distr_l_reverse. apply round_NE_opp.
Qed.

Theorem cv_sign : forall t v q, wf_rep t -> symmetric t v -> 3 <= prec -> rmax t <= 2 ^ (emax - 2) -> value v = Some q ->
  exists x qx, cv t v = Ok x /\ float_value x = Some qx /\
    ((0 < qx <-> 0 < q) /\ (qx < 0 <-> q < 0) /\ (qx == 0 <-> q == 0))%Q.
Proof.
  intros t v q W [WV [N D]] P M V.
  destruct (conv_error prec emax Hprec Hmax nan t v q W WV N D P M V) as [x [qx [X1 [X2 X3]]]].
  exists x, qx. split; auto. split; auto.
  assert (S : (4 * (2 # 1) ^ (- prec) <= 1 # 2)%Q).
  { apply Rle_Qle. rewrite Q2R_mult, Q2R_pow2.
    pose proof (bpow_le radix2 (- prec) (-3) ltac:(lia)) as B. change (bpow radix2 (-3)) with (/ 8)%R in B.
    unfold Q2R; cbn. lra. }
  assert (T : (Qabs (qx - q) <= (1 # 2) * Qabs q)%Q).
  { eapply Qle_trans; [exact X3|]. apply Qmult_le_compat_r; auto. apply Qabs_nonneg. }
  clear X3 S. revert T. apply (Qabs_case (qx - q)); apply (Qabs_case q); intros A B T; repeat split; intros; lra.
Qed.

(** Distinct small fractions. *)
Let u := bpow radix2 (- prec).

Lemma close_apart : forall k a b c d, 0 <= k -> Z.abs a <= 2 ^ k -> 0 < b <= 2 ^ k -> Z.abs c <= 2 ^ k -> 0 < d <= 2 ^ k ->
  a * d <> c * b ->
  (bpow radix2 (- (2 * k)) * Rabs (IZR a / IZR b) <= Rabs (IZR a / IZR b - IZR c / IZR d))%R.
Proof.
  intros k a b c d K A B C D E.
  assert (BP : (0 < IZR b)%R) by (apply IZR_lt; lia). assert (DP : (0 < IZR d)%R) by (apply IZR_lt; lia).
  assert (PP : (0 < bpow radix2 k)%R) by apply bpow_gt_0.
  assert (AK : (Rabs (IZR a) <= bpow radix2 k)%R) by (rewrite <- abs_IZR, <- (IZR_Zpower radix2) by lia; now apply IZR_le).
  assert (DK : (IZR d <= bpow radix2 k)%R) by (rewrite <- (IZR_Zpower radix2) by lia; apply IZR_le; cbn [radix_val radix2]; lia).
  replace (IZR a / IZR b - IZR c / IZR d)%R with (IZR (a * d - c * b) * / (IZR b * IZR d))%R
    by (rewrite minus_IZR, !mult_IZR; field; lra).
  unfold Rdiv. rewrite !Rabs_mult, !Rabs_inv, Rabs_mult, (Rabs_pos_eq (IZR b)), (Rabs_pos_eq (IZR d)) by lra.
  assert (ONE : (1 <= Rabs (IZR (a * d - c * b)))%R) by (rewrite <- abs_IZR; apply IZR_le; lia).
  rewrite bpow_opp. replace (2 * k) with (k + k) by ring. rewrite bpow_plus.
  set (P := bpow radix2 k) in *. set (x := Rabs (IZR a)) in *. set (y := Rabs (IZR (a * d - c * b))) in *.
  assert (X0 : (0 <= x)%R) by apply Rabs_pos.
  rewrite !Rinv_mult.
  replace (/ P * / P * (x * / IZR b))%R with (/ IZR b * ((x * / P) * / P))%R by ring.
  replace (y * (/ IZR b * / IZR d))%R with (/ IZR b * (y * / IZR d))%R by ring.
  apply Rmult_le_compat_l; [left; now apply Rinv_0_lt_compat|].
  assert (0 < / P)%R by now apply Rinv_0_lt_compat.
  apply Rmult_le_compat; try lra.
  - apply Rmult_le_pos; lra.
  - apply Rle_trans with 1%R; auto. apply (Rmult_le_reg_r P); auto. rewrite Rmult_assoc, Rinv_l by lra. lra.
  - apply Rinv_le_contravar; lra.
Qed.

Lemma rnd_small_parts : forall q, Z.abs (Qnum (Qred q)) <= 2 ^ (prec - 1) -> Zpos (Qden (Qred q)) <= 2 ^ (prec - 1) ->
  short_parts prec q.
Proof.
  intros q N D. pose proof (sizes prec emax Hprec Hmax). pose proof (pow2_lt (prec - 1) prec ltac:(lia)).
  split; [exists (Qnum (Qred q)), 0|exists (Zpos (Qden (Qred q))), 0]; change (2 ^ 0) with 1; repeat split; lia.
Qed.

Theorem cv_injective : forall t v w p q k, wf_rep t -> symmetric t v -> symmetric t w -> 3 <= prec -> rmax t <= 2 ^ (emax - 2) ->
  value v = Some p -> value w = Some q -> 0 <= k -> 2 * k < prec -> parts_at_most (2 ^ k) p -> parts_at_most (2 ^ k) q ->
  ~ (p == q)%Q -> converted (cv t) v w (fun a b => ~ (a == b)%Q).
Proof.
  intros t v w p q k W SV SW P3 M V V' K KP [PN PD] [QN QD] NE. pose proof (sizes prec emax Hprec Hmax) as SZ.
  assert (M1 : rmax t <= 2 ^ (emax - 1)) by (pose proof (pow2_le (emax - 2) (emax - 1) ltac:(lia)); lia).
  destruct (cv_value t v p W SV M1 V) as [x [px [X1 [X2 [_ [_ X3]]]]]].
  destruct (cv_value t w q W SW M1 V') as [y [qy [Y1 [Y2 [_ [_ Y3]]]]]].
  destruct (cv_sign t v p W SV P3 M V) as [x' [px' [X1' [X2' [XP [XM XZ]]]]]].
  destruct (cv_sign t w q W SW P3 M V') as [y' [qy' [Y1' [Y2' [YP [YM YZ]]]]]].
  rewrite X1 in X1'; injection X1' as <-. rewrite Y1 in Y1'; injection Y1' as <-.
  rewrite X2 in X2'; injection X2' as <-. rewrite Y2 in Y2'; injection Y2' as <-.
  exists x, y, px, qy. repeat split; auto. intros EQ.
  pose proof (pow2_le k (prec - 1) ltac:(lia)) as PK.
  rewrite cv_exact in X3 by (apply rnd_small_parts; lia). rewrite cv_exact in Y3 by (apply rnd_small_parts; lia).
  assert (ER : rnd (Q2R p) = rnd (Q2R q)) by (rewrite <- X3, <- Y3; now apply Qeq_eqR).
  destruct (Qeq_dec p 0) as [P0|P0].
  { apply NE. rewrite P0. symmetry. apply YZ. rewrite <- EQ. now apply XZ. }
  destruct (Qeq_dec q 0) as [Q0|Q0].
  { apply NE. rewrite Q0. apply XZ. rewrite EQ. now apply YZ. }
  (* both are at least 2^(2-emax) in magnitude, so their rounding has a relative error *)
  assert (BIG : forall r, parts_at_most (2 ^ k) r -> ~ (r == 0)%Q -> (bpow radix2 (2 - emax) <= Rabs (Q2R r))%R).
  { intros r [RN RD] R0. rewrite Q2R_red. 
    assert (Qnum (Qred r) <> 0).
    { intros Z. apply R0. rewrite <- (Qred_correct r). destruct (Qred r) as [n d]. cbn in Z. subst n. reflexivity. }
    assert (1 <= Rabs (IZR (Qnum (Qred r))))%R by (rewrite <- abs_IZR; apply IZR_le; lia).
    assert (D1 : (1 <= IZR (Zpos (Qden (Qred r))))%R) by (apply IZR_le; lia).
    assert (D2 : (IZR (Zpos (Qden (Qred r))) <= bpow radix2 k)%R).
    { rewrite <- (IZR_Zpower radix2) by lia. now apply IZR_le. }
    unfold Rdiv. rewrite Rabs_mult, Rabs_inv, (Rabs_pos_eq (IZR (Zpos _))) by lra.
    apply Rle_trans with (bpow radix2 (- k)); [apply bpow_le; lia|]. rewrite bpow_opp.
    rewrite <- (Rmult_1_l (/ bpow radix2 k)).
    apply Rmult_le_compat; try lra; [left; apply Rinv_0_lt_compat, bpow_gt_0|]. apply Rinv_le_contravar; lra. }
  destruct (rnd_error prec emax Hprec (Q2R p) (BIG p (conj PN PD) P0)) as [e1 [A1 B1]].
  destruct (rnd_error prec emax Hprec (Q2R q) (BIG q (conj QN QD) Q0)) as [e2 [A2 B2]].
  change (rnd (Q2R p) = Q2R p * (1 + e1))%R in B1. change (rnd (Q2R q) = Q2R q * (1 + e2))%R in B2.
  fold u in A1, A2.
  assert (CR : Qnum (Qred p) * Zpos (Qden (Qred q)) <> Qnum (Qred q) * Zpos (Qden (Qred p))).
  { intros Z. apply NE. rewrite <- (Qred_correct p), <- (Qred_correct q). exact Z. }
  assert (G1 : (2 * u * Rabs (Q2R p) <= Rabs (Q2R p - Q2R q))%R).
  { eapply Rle_trans; [|rewrite (Q2R_red p), (Q2R_red q); apply (close_apart k); auto; lia].
    rewrite <- Q2R_red. apply Rmult_le_compat_r; [apply Rabs_pos|].
    replace (2 * u)%R with (bpow radix2 (1 - prec)) by (unfold u, Z.sub; rewrite bpow_plus; reflexivity).
    apply bpow_le. lia. }
  assert (G2 : (2 * u * Rabs (Q2R q) <= Rabs (Q2R p - Q2R q))%R).
  { rewrite Rabs_minus_sym.
    eapply Rle_trans; [|rewrite (Q2R_red p), (Q2R_red q); apply (close_apart k); auto; lia].
    rewrite <- Q2R_red. apply Rmult_le_compat_r; [apply Rabs_pos|].
    replace (2 * u)%R with (bpow radix2 (1 - prec)) by (unfold u, Z.sub; rewrite bpow_plus; reflexivity).
    apply bpow_le. lia. }
  assert (UP : (0 < u)%R) by apply bpow_gt_0.
  assert (G3 : (Rabs (Q2R p - Q2R q) <= u * Rabs (Q2R p) + u * Rabs (Q2R q))%R).
  { replace (Q2R p - Q2R q)%R with (Q2R q * e2 + - (Q2R p * e1))%R by (rewrite B1, B2 in ER; lra).
    eapply Rle_trans; [apply Rabs_triang|]. rewrite Rabs_Ropp, !Rabs_mult.
    pose proof (Rmult_le_compat_l _ _ _ (Rabs_pos (Q2R p)) A1). pose proof (Rmult_le_compat_l _ _ _ (Rabs_pos (Q2R q)) A2). lra. }
  assert (EA : Rabs (Q2R p) = Rabs (Q2R q)).
  { assert (u * Rabs (Q2R p) = u * Rabs (Q2R q))%R by lra. apply (Rmult_eq_reg_l u); lra. }
  assert (OP : (q == - p)%Q).
  { apply eqR_Qeq. rewrite Q2R_opp. destruct (Req_dec (Q2R q) (Q2R p)) as [Z|Z].
    - exfalso. apply NE. symmetry. now apply eqR_Qeq.
    - revert EA Z. unfold Rabs. destruct (Rcase_abs (Q2R p)), (Rcase_abs (Q2R q)); intros; lra. }
  destruct (Q_dec p 0) as [[L|L]|L]; [| |contradiction].
  - apply XM in L. assert (0 < q)%Q by (rewrite OP; apply XM in L; lra). apply YP in H. lra.
  - apply XP in L. assert (q < 0)%Q by (rewrite OP; apply XP in L; lra). apply YM in H. lra.
Qed.

Theorem cv_compare : forall t v w p q k, wf_rep t -> symmetric t v -> symmetric t w -> 3 <= prec -> rmax t <= 2 ^ (emax - 2) ->
  value v = Some p -> value w = Some q -> 0 <= k -> 2 * k < prec -> parts_at_most (2 ^ k) p -> parts_at_most (2 ^ k) q ->
  converted (cv t) v w (fun a b => (a ?= b)%Q = (p ?= q)%Q).
Proof.
  intros t v w p q k W SV SW P3 M V V' K KP P Q. pose proof (sizes prec emax Hprec Hmax) as SZ.
  assert (M1 : rmax t <= 2 ^ (emax - 1)) by (pose proof (pow2_le (emax - 2) (emax - 1) ltac:(lia)); lia).
  pose proof (pow2_le k (prec - 1) ltac:(lia)) as PK.
  assert (SP : short_parts prec p) by (destruct P; apply rnd_small_parts; lia).
  assert (SQ : short_parts prec q) by (destruct Q; apply rnd_small_parts; lia).
  destruct (cv_value t v p W SV M1 V) as [x [px [X1 [X2 [_ [_ X3]]]]]].
  destruct (cv_value t w q W SW M1 V') as [y [qy [Y1 [Y2 [_ [_ Y3]]]]]].
  exists x, y, px, qy. repeat split; auto.
  assert (NEQ : ~ (p == q)%Q -> ~ (px == qy)%Q).
  { intros NE. destruct (cv_injective t v w p q k) as [x' [y' [px' [qy' [A1 [A2 [A3 [A4 A5]]]]]]]]; auto.
    congruence. }
  destruct (p ?= q)%Q eqn:C.
  - apply Qeq_alt in C. apply Qeq_alt. apply eqR_Qeq. now rewrite X3, Y3, (Qred_complete _ _ C).
  - apply Qlt_alt in C. apply Qlt_alt.
    destruct (cv_monotone t v w p q) as [x' [y' [px' [qy' [A1 [A2 [A3 [A4 A5]]]]]]]]; auto; [lra|].
    replace px' with px in A5 by congruence. replace qy' with qy in A5 by congruence.
    specialize (NEQ ltac:(lra)). apply Qle_lteq in A5 as [A5|A5]; [auto|contradiction].
  - apply Qgt_alt in C. apply Qgt_alt.
    destruct (cv_monotone t w v q p) as [y' [x' [qy' [px' [A1 [A2 [A3 [A4 A5]]]]]]]]; auto; [lra|].
    replace px' with px in A5 by congruence. replace qy' with qy in A5 by congruence.
    specialize (NEQ ltac:(lra)). apply Qle_lteq in A5 as [A5|A5]; [auto|]. symmetry in A5. contradiction.
Qed.

(** Values that floating point represents exactly. *)
Lemma significant_abs : forall k e q, significant k e q -> exists z, 2 ^ k <= Z.abs z < 2 ^ (k + 1) /\ 0 <= k /\
  (q == inject_Z z * (2 # 1) ^ (e - k))%Q.
Proof.
  intros k e q [n [[K N] E]]. pose proof (pow2_pos k K).
  destruct (Qlt_le_dec q 0) as [L|L].
  - exists (- n). split; [lia|]. split; auto. rewrite Qabs_neg in E by lra. rewrite inject_Z_opp. lra.
  - exists n. split; [lia|]. split; auto. rewrite Qabs_pos in E by lra. exact E.
Qed.

Lemma significant_eq : forall k e p q, (p == q)%Q -> significant k e p -> significant k e q.
Proof. intros k e p q E [n [N H]]. exists n. split; auto. now rewrite <- E. Qed.

Theorem cv_dyadic : forall t v q k e, wf_rep t -> symmetric t v -> rmax t <= 2 ^ (emax - 1) -> value v = Some q ->
  significant k e q -> k < prec -> 2 - emax <= e ->
  exists x, cv t v = Ok x /\ same_value (float_value x) (Some q).
Proof.
  intros t v q k e W SV M V S K E. pose proof (sizes prec emax Hprec Hmax) as SZ.
  destruct (cv_value t v q W SV M V) as [x [qx [X1 [X2 [_ [_ X3]]]]]]. exists x. split; auto. rewrite X2. cbn [same_value].
  destruct (significant_abs k e q S) as [z [Z1 [Z2 Z3]]]. pose proof (pow2_le (k + 1) prec ltac:(lia)) as PK.
  pose proof (pow2_pos k Z2).
  assert (RP : short_parts prec q).
  { destruct (Z.abs z) as [|m|m] eqn:A; try lia.
    apply (Float2_proofs.representable_parts prec emax Hprec Hmax (z <? 0) m (e - k) q); [lia|].
    replace (if z <? 0 then Z.neg m else Z.pos m) with z; auto. destruct (z <? 0) eqn:C; lia. }
  rewrite cv_exact in X3 by exact RP. apply eqR_Qeq. rewrite X3.
  apply round_generic; [apply valid_rnd3|]. rewrite (Qeq_eqR _ _ Z3), Q2R_mult, Q2R_inject, Q2R_pow2.
  apply generic_format_FLT.
  destruct (Z.le_gt_cases emin (e - k)) as [C|C].
  - exists (Float radix2 z (e - k)); cbn [Fnum Fexp]; auto. cbn [radix_val radix2]. lia.
  - exists (Float radix2 (z * 2 ^ (e - k - (e - prec + 1))) (e - prec + 1)); cbn [Fnum Fexp]; [| |unfold emin; lia].
    + unfold F2R. cbn [Fnum Fexp]. rewrite mult_IZR, (IZR_Zpower radix2), Rmult_assoc, <- bpow_plus by (unfold emin in C; lia).
      do 2 f_equal. ring.
    + rewrite Z.abs_mul, (Z.abs_eq (2 ^ _)) by (apply Z.pow_nonneg; lia). cbn [radix_val radix2].
      replace prec with (k + 1 + (e - k - (e - prec + 1))) at 2 by ring.
      rewrite Z.pow_add_r by lia. apply Z.mul_lt_mono_pos_r; [apply pow2_pos|]; lia.
Qed.
End Format.

(** Canonical results. *)
Lemma of_float_canonical : forall o t n mw ew u r, wf_rep t -> output_canonical o = true ->
  floating_point_to_fraction (denote o) t little n mw ew u = Ok r -> canonical r.
Proof.
  intros o t n mw ew u r W C H. unfold floating_point_to_fraction in H.
  destruct (offsets little mw ew) as [[so eo] mo].
  destruct (andb _ _); [injection H as <-; now left|]. inv_all.
  rewrite !f_arith_self in *.
  assert (CA : forall z, in_rep t (cast t z) = true) by (intros; apply wrap_in; auto).
  assert (P2 : forall z s, mu_pow2 t z = Ok s -> in_rep t s = true).
  { intros z s S. unfold mu_pow2 in S. inv_all. auto. }
  assert (ONE : in_rep t 1 = true) by (apply in_rep_iff; pose proof (rmax_big t W); pose proof (rmin_nonpos t W); lia).
  assert (A1 : in_rep t a = true).
  { destruct (_ =? 0) in E; [injection E as <-; auto|]. unfold m_neg, arith in E.
    destruct (rsigned t); [|injection E as <-; now apply wrap_in].
    match type of E with context [in_rep t ?z] => destruct (in_rep t z) eqn:I end; [|discriminate]. now injection E as <-. }
  assert (A6 : wf_raw t a6).
  { unfold f_pow2 in E6. destruct (a2 >=? 0); inv_all; split; cbn [num den f_of_int]; eauto. }
  eapply denote_canonical; [exact W| |exact C|eassumption].
  assert (A4 : wf_raw t a4).
  { refine (proj1 (denote_wf o) t _ _ _ W _ E4). split; cbn [wf_args]; auto. split; cbn [num den]; eauto. }
  assert (A5 : wf_raw t a5).
  { refine (proj1 (denote_wf o) t _ _ _ W _ E5). split; cbn [wf_args]; auto. }
  split; auto.
Qed.
