(** Proofs about the conversion of fractions to floating-point numbers. *)

From Coq Require Import ZArith QArith Qabs Qreduction Qpower Qreals Reals Lia Lra Psatz.
From Flocq Require Import Core Relative.
From Flocq Require Import IEEE754.BinarySingleNaN.
From Flocq Require Import IEEE754.Binary IEEE754.Bits.
From Verif Require Import Machine Raw Ops Spec Fraction Float Float_spec Mixed_spec.
From Verif Require Import Machine_proofs Value_proofs Ops_proofs Tight_proofs Float_proofs.
From Coq Require Qcanon.
Open Scope Z_scope.

Lemma zero_in : forall t, wf_rep t -> in_rep t 0 = true.
Proof.
  intros t W. apply in_rep_iff. pose proof (rmax_big t W). pose proof (rmin_nonpos t W). lia.
Qed.

(** Rationals as reals. *)
Lemma Q2R_inject : forall z, Q2R (inject_Z z) = IZR z.
Proof. intros z. unfold Q2R, inject_Z. cbn. field. Qed.
Lemma Q2R_pow2 : forall e, Q2R ((2 # 1) ^ e) = bpow radix2 e.
Proof.
  assert (N : forall k, 0 <= k -> Q2R ((2 # 1) ^ k) = bpow radix2 k).
  { intros k H. rewrite <- (Qeq_eqR _ _ (Qpow_Z k H)), Q2R_inject. now rewrite <- (IZR_Zpower radix2). }
  intros e. destruct (Z.le_gt_cases 0 e) as [H|H]; auto.
  replace e with (- (- e)) by ring. rewrite (Qeq_eqR _ _ (Qpower_opp (2 # 1) (- e))).
  rewrite Q2R_inv by (pose proof (Qpow_pos (- e)); intros X; rewrite X in H0; inversion H0).
  rewrite N by lia. now rewrite (bpow_opp radix2 (- e)).
Qed.
Lemma Q2R_abs : forall q, Q2R (Qabs q) = Rabs (Q2R q).
Proof.
  intros q. apply (Qabs_case q (fun a => Q2R a = Rabs (Q2R q))); intros H.
  - rewrite Rabs_pos_eq; auto. replace 0%R with (Q2R 0) by (unfold Q2R; cbn; lra). now apply Qle_Rle.
  - rewrite Q2R_opp, Rabs_left1; auto. replace 0%R with (Q2R 0) by (unfold Q2R; cbn; lra). now apply Qle_Rle.
Qed.

Section Format.
Variables prec emax : Z.
Variable Hprec : Prec_gt_0 prec.
Variable Hmax : Prec_lt_emax prec emax.
Variable nan : { x : binary_float prec emax | is_nan prec emax x = true }.
Let float := binary_float prec emax.
Let emin := 3 - emax - prec.
Let fexp := FLT_exp emin prec.
Let rnd := round radix2 fexp ZnearestE.
Let to_fp (z : Z) : float := int_to_float prec emax Hprec Hmax z.

Local Instance valid_fexp : Valid_exp fexp := FLT_exp_valid emin prec.
Local Instance valid_rnd : Valid_rnd ZnearestE := valid_rnd_N _.

Lemma sizes : 0 < prec < emax.
Proof. split; [exact Hprec|exact Hmax]. Qed.

Lemma float_value_R : forall (x : float) q, float_value x = Some q -> B2R prec emax x = Q2R q /\ is_finite prec emax x = true.
Proof.
  intros [s|s|s pl H|s m e H] q V; cbn [float_value] in V; try discriminate; injection V as <-; cbn [B2R is_finite].
  - split; auto. unfold Q2R; cbn; lra.
  - split; auto. rewrite Q2R_mult, Q2R_inject, Q2R_pow2. unfold F2R. cbn [Fnum Fexp]. destruct s; reflexivity.
Qed.
Lemma finite_value : forall x : float, is_finite prec emax x = true -> exists q, float_value x = Some q.
Proof. intros [s|s|s pl H|s m e H] F; try discriminate; cbn [float_value]; eexists; reflexivity. Qed.

Lemma format_bpow : forall e, emin + prec - 1 <= e -> generic_format radix2 fexp (bpow radix2 e).
Proof. intros e H. apply generic_format_bpow. unfold fexp, FLT_exp. pose proof sizes. lia. Qed.

(** Conversion of integers. *)
Lemma int_rounded : forall z, Z.abs z <= 2 ^ (emax - 1) ->
  B2R prec emax (to_fp z) = rnd (IZR z) /\ is_finite prec emax (to_fp z) = true /\
  (Rabs (rnd (IZR z)) <= bpow radix2 (emax - 1))%R.
Proof.
  intros z Z. pose proof sizes as SZ.
  pose proof (binary_normalize_correct prec emax Hprec Hmax mode_NE z 0 false) as C.
  assert (F0 : F2R (Float radix2 z 0) = IZR z) by (unfold F2R; cbn; ring). rewrite F0 in C.
  change (round radix2 (SpecFloat.fexp prec emax) (round_mode mode_NE) (IZR z)) with (rnd (IZR z)) in C.
  assert (B : (Rabs (rnd (IZR z)) <= bpow radix2 (emax - 1))%R).
  { apply abs_round_le_generic; [apply valid_fexp|apply valid_rnd|apply format_bpow; unfold emin; lia|].
    rewrite <- abs_IZR, <- (IZR_Zpower radix2) by lia. now apply IZR_le. }
  rewrite Rlt_bool_true in C.
  - destruct C as [C1 [C2 _]]. auto.
  - eapply Rle_lt_trans; [exact B|]. apply bpow_lt. lia.
Qed.

Lemma format_int : forall z, exactly_representable prec z -> generic_format radix2 fexp (IZR z).
Proof.
  intros z [m [k [K [E M]]]]. apply generic_format_FLT. exists (Float radix2 m k); cbn [Fnum Fexp]; auto.
  - unfold F2R. cbn [Fnum Fexp]. rewrite E, mult_IZR, <- (IZR_Zpower radix2) by lia. reflexivity.
  - pose proof sizes. unfold emin. lia.
Qed.
Lemma int_exact : forall z, exactly_representable prec z -> rnd (IZR z) = IZR z.
Proof. intros z H. apply round_generic; [apply valid_rnd|now apply format_int]. Qed.

(** The quotient of converted integers. *)
Lemma one_format : generic_format radix2 fexp 1.
Proof. change 1%R with (bpow radix2 0). apply format_bpow. pose proof sizes. unfold emin. lia. Qed.

Lemma rnd_ge_1 : forall z, 0 < z -> (1 <= rnd (IZR z))%R.
Proof. intros z H. apply round_ge_generic; [apply valid_fexp|apply valid_rnd|apply one_format|]. apply IZR_le. lia. Qed.

Lemma quotient : forall n d, Z.abs n <= 2 ^ (emax - 1) -> 0 < d <= 2 ^ (emax - 1) ->
  let x := Bdiv prec emax Hprec Hmax (fun _ _ => nan) mode_NE (to_fp n) (to_fp d) in
  B2R prec emax x = rnd (rnd (IZR n) / rnd (IZR d)) /\ is_finite prec emax x = true.
Proof.
  intros n d N D x. destruct (int_rounded n N) as [N1 [N2 N3]].
  destruct (int_rounded d ltac:(lia)) as [D1 [D2 D3]]. pose proof (rnd_ge_1 d ltac:(lia)) as D4. pose proof sizes as SZ.
  pose proof (Bdiv_correct prec emax Hprec Hmax (fun _ _ => nan) mode_NE (to_fp n) (to_fp d)) as C.
  fold x in C. rewrite N1, D1, N2 in C. specialize (C ltac:(lra)).
  change (round radix2 (SpecFloat.fexp prec emax) (round_mode mode_NE) (rnd (IZR n) / rnd (IZR d)))
    with (rnd (rnd (IZR n) / rnd (IZR d))) in C.
  rewrite Rlt_bool_true in C.
  - destruct C as [C1 [C2 _]]. auto.
  - apply Rle_lt_trans with (bpow radix2 (emax - 1)); [|apply bpow_lt; lia].
    apply abs_round_le_generic; [apply valid_fexp|apply valid_rnd|apply format_bpow; unfold emin; lia|].
    eapply Rle_trans; [|exact N3]. unfold Rdiv. rewrite Rabs_mult, Rabs_inv, (Rabs_pos_eq (rnd (IZR d))) by lra.
    rewrite <- (Rmult_1_r (Rabs (rnd (IZR n)))) at 2. apply Rmult_le_compat_l; [apply Rabs_pos|].
    rewrite <- Rinv_1. apply Rinv_le_contravar; lra.
Qed.

(** What to_float computes. *)
Definition conv (t : rep) (v : raw) := fraction_to_floating_point prec emax Hprec Hmax nan t v.

Lemma reduced_parts : forall t v q, wf_rep t -> wf_raw t v -> Z.abs (num v) <= rmax t -> Z.abs (den v) <= rmax t ->
  value v = Some q -> exists r, reduce t v normalize_signs_mode = Ok r /\
    0 < den r <= rmax t /\ Z.abs (num r) <= rmax t /\ num r = Qnum (Qred q) /\ den r = Zpos (Qden (Qred q)).
Proof.
  intros t v q W WV N D V. destruct (reduce_total t v normalize_signs_mode W WV N D) as [r R]. exists r. split; auto.
  apply reduce_spec in R as [_ [R _]]; auto. pose proof (reduces_bound _ _ _ R) as B.
  pose proof (reduces_same_value _ _ _ R) as SV. pose proof (reduces_canonical _ _ R) as C.
  rewrite V in SV. destruct C as [[_ C]|[C1 C2]].
  { apply value_none_iff in C. rewrite C in SV. contradiction. }
  split; [lia|]. split; [lia|].
  rewrite value_defined in SV by lia. cbn [same_value] in SV.
  assert (E : Qred q = Qmake (num r) (Z.to_pos (den r))).
  { transitivity (Qred (Qmake (num r) (Z.to_pos (den r)))).
    - apply Qred_complete. rewrite <- SV. destruct (den r) as [|p|p] eqn:DR; try lia. cbn [Z.to_pos].
      now rewrite Qmake_Qdiv.
    - apply Qcanon.Qred_identity. cbn [Qnum Qden]. now rewrite Z2Pos.id by lia. }
  rewrite E. cbn [Qnum Qden]. now rewrite Z2Pos.id by lia.
Qed.

Lemma Q2R_red : forall q, Q2R q = (IZR (Qnum (Qred q)) / IZR (Zpos (Qden (Qred q))))%R.
Proof. intros q. rewrite <- (Qeq_eqR _ _ (Qred_correct q)). reflexivity. Qed.

Lemma conv_shape : forall t v q, wf_rep t -> wf_raw t v -> Z.abs (num v) <= rmax t -> Z.abs (den v) <= rmax t ->
  rmax t <= 2 ^ (emax - 1) -> value v = Some q ->
  exists x, conv t v = Ok x /\ is_finite prec emax x = true /\
    B2R prec emax x = rnd (rnd (IZR (Qnum (Qred q))) / rnd (IZR (Zpos (Qden (Qred q))))) /\
    Z.abs (Qnum (Qred q)) <= rmax t /\ Zpos (Qden (Qred q)) <= rmax t.
Proof.
  intros t v q W WV N D M V. destruct (reduced_parts t v q W WV N D V) as [r [R [R1 [R2 [R3 R4]]]]].
  unfold conv, fraction_to_floating_point. rewrite R. cbn [bind].
  destruct (quotient (num r) (den r)) as [Q1 Q2]; [lia|lia|].
  eexists. split; [reflexivity|]. rewrite <- R3, <- R4. repeat split; try lia; auto.
Qed.

Theorem conv_rounded : forall t v q, wf_rep t -> wf_raw t v -> Z.abs (num v) <= rmax t -> Z.abs (den v) <= rmax t ->
  rmax t <= 2 ^ (emax - 1) -> value v = Some q ->
  exactly_representable prec (Qnum (Qred q)) -> exactly_representable prec (Zpos (Qden (Qred q))) ->
  exists x, conv t v = Ok x /\ is_finite prec emax x = true /\ B2R prec emax x = rnd (Q2R q).
Proof.
  intros t v q W WV N D M V EN ED. destruct (conv_shape t v q W WV N D M V) as [x [X1 [X2 [X3 _]]]].
  exists x. split; auto. split; auto. rewrite X3, !int_exact by auto. now rewrite <- Q2R_red.
Qed.

Theorem conv_nearest : forall t v q, wf_rep t -> wf_raw t v -> Z.abs (num v) <= rmax t -> Z.abs (den v) <= rmax t ->
  rmax t <= 2 ^ (emax - 1) -> value v = Some q ->
  exactly_representable prec (Qnum (Qred q)) -> exactly_representable prec (Zpos (Qden (Qred q))) ->
  exists x qx, conv t v = Ok x /\ float_value x = Some qx /\
    forall (y : float) qy, float_value y = Some qy -> (Qabs (qx - q) <= Qabs (qy - q))%Q.
Proof.
  intros t v q W WV N D M V EN ED. destruct (conv_rounded t v q W WV N D M V EN ED) as [x [X1 [X2 X3]]].
  destruct (finite_value x X2) as [qx QX]. exists x, qx. split; auto. split; auto.
  intros y qy QY. destruct (float_value_R x qx QX) as [RX _]. destruct (float_value_R y qy QY) as [RY _].
  apply Rle_Qle. rewrite !Q2R_abs, !Q2R_minus, <- RX, <- RY, X3.
  destruct (round_N_pt radix2 fexp (fun x => negb (Z.even x)) (Q2R q)) as [_ G]. apply G.
  apply generic_format_B2R.
Qed.

Theorem conv_undefined : forall t v, wf_rep t -> wf_raw t v -> value v = None ->
  exists x, conv t v = Ok x /\ is_nan prec emax x = true.
Proof.
  intros t v W WV V. apply value_none_iff in V.
  assert (R : reduce t v normalize_signs_mode = Ok (mkRaw 0 0)).
  { unfold reduce, reduce_normalize_signs, reduce_ignore_signs. rewrite (proj2 (is_undefined_iff v) V). cbn [bind].
    unfold normalize_signs. cbn [num den]. change (0 >? 0) with false. cbn iota.
    assert (NZ : m_neg t 0 = Ok 0).
    { unfold m_neg. cbn [Z.opp]. unfold arith. rewrite (zero_in t W). destruct (rsigned t); auto. now rewrite wrap_id by (auto; apply zero_in; auto). }
    rewrite NZ. reflexivity. }
  unfold conv, fraction_to_floating_point. rewrite R. cbn [bind num den]. eexists; split; [reflexivity|].
  pose proof (int_rounded 0) as I. cbn [Z.abs] in I. specialize (I ltac:(pose proof sizes; apply Z.pow_nonneg; lia)).
  destruct I as [I1 [I2 _]].
  assert (Z0 : rnd (IZR 0) = 0%R) by (apply round_0; apply valid_rnd). rewrite Z0 in I1.
  unfold to_fp in *. destruct (int_to_float prec emax Hprec Hmax 0) as [s|s|s pl H|s m e H]; try discriminate.
  - cbn. destruct nan as [y Y]. reflexivity.
  - exfalso. cbn [B2R] in I1. apply eq_0_F2R in I1. destruct s; discriminate.
Qed.
(** The error of the three roundings together. *)
Let u := bpow radix2 (- prec).

Lemma rnd_error : forall x, (bpow radix2 (2 - emax) <= Rabs x)%R ->
  exists e, (Rabs e <= u)%R /\ rnd x = (x * (1 + e))%R.
Proof.
  intros x H. destruct (relative_error_N_FLT_ex radix2 emin prec Hprec (fun x => negb (Z.even x)) x) as [e [E1 E2]].
  { replace (emin + prec - 1) with (2 - emax) by (unfold emin; ring). exact H. }
  exists e. split; auto. eapply Rle_trans; [exact E1|]. unfold u. rewrite bpow_plus. cbn [bpow]. cbn. lra.
Qed.

Lemma combine_errors : forall e1 e2 e3, (u <= / 8)%R -> (Rabs e1 <= u)%R -> (Rabs e2 <= u)%R -> (Rabs e3 <= u)%R ->
  (Rabs ((1 + e1) / (1 + e2) * (1 + e3) - 1) <= 4 * u)%R.
Proof.
  intros e1 e2 e3 U A1 A2 A3. assert (0 < u)%R by apply bpow_gt_0.
  apply Rabs_le_inv in A1. apply Rabs_le_inv in A2. apply Rabs_le_inv in A3.
  assert (P : (0 < 1 + e2)%R) by lra.
  replace ((1 + e1) / (1 + e2) * (1 + e3) - 1)%R with ((e1 + e3 + e1 * e3 - e2) * / (1 + e2))%R by (field; lra).
  rewrite Rabs_mult, Rabs_inv, (Rabs_pos_eq (1 + e2)) by lra.
  apply (Rmult_le_reg_r (1 + e2)); auto. rewrite Rmult_assoc, Rinv_l, Rmult_1_r by lra.
  assert (X : (Rabs (e1 * e3) <= u * u)%R).
  { rewrite Rabs_mult. apply Rmult_le_compat; try apply Rabs_pos; apply Rabs_le; lra. }
  apply Rabs_le_inv in X. apply Rabs_le. nra.
Qed.

Theorem conv_error : forall t v q, wf_rep t -> wf_raw t v -> Z.abs (num v) <= rmax t -> Z.abs (den v) <= rmax t ->
  3 <= prec -> rmax t <= 2 ^ (emax - 2) -> value v = Some q ->
  exists x qx, conv t v = Ok x /\ float_value x = Some qx /\
    (Qabs (qx - q) <= 4 * (2 # 1) ^ (- prec) * Qabs q)%Q.
Proof.
  intros t v q W WV N D P3 M V. pose proof sizes as SZ.
  assert (M1 : rmax t <= 2 ^ (emax - 1)) by (pose proof (pow2_le (emax - 2) (emax - 1) ltac:(lia)); lia).
  destruct (conv_shape t v q W WV N D M1 V) as [x [X1 [X2 [X3 [X4 X5]]]]].
  destruct (finite_value x X2) as [qx QX]. exists x, qx. split; auto. split; auto.
  destruct (float_value_R x qx QX) as [RX _]. apply Rle_Qle.
  rewrite !Q2R_mult, !Q2R_abs, Q2R_minus, <- RX, X3, Q2R_pow2. fold u.
  replace (Q2R 4) with 4%R by (unfold Q2R; cbn; lra).
  rewrite (Q2R_red q). set (n := Qnum (Qred q)) in *. set (d := Zpos (Qden (Qred q))) in *.
  assert (DP : 0 < d) by (unfold d; lia). assert (DR : (1 <= IZR d)%R) by (apply IZR_le; lia).
  destruct (Z.eq_dec n 0) as [N0|N0].
  { rewrite N0. replace (rnd (IZR 0)) with 0%R by (symmetry; apply round_0; apply valid_rnd).
    unfold Rdiv. rewrite !Rmult_0_l. replace (rnd 0) with 0%R by (symmetry; apply round_0; apply valid_rnd).
    rewrite Rminus_0_r, Rabs_R0. lra. }
  assert (SM : (bpow radix2 (2 - emax) <= 1)%R) by (change 1%R with (bpow radix2 0); apply bpow_le; lia).
  assert (N1 : (1 <= Rabs (IZR n))%R) by (rewrite <- abs_IZR; apply IZR_le; lia).
  destruct (rnd_error (IZR n)) as [e1 [A1 B1]]; [lra|].
  destruct (rnd_error (IZR d)) as [e2 [A2 B2]]; [rewrite Rabs_pos_eq; lra|].
  assert (U : (u <= / 8)%R).
  { unfold u. replace (/ 8)%R with (bpow radix2 (-3)) by (cbn; lra). apply bpow_le. lia. }
  assert (UP : (0 < u)%R) by apply bpow_gt_0.
  assert (G : (bpow radix2 (2 - emax) <= Rabs (rnd (IZR n) / rnd (IZR d)))%R).
  { pose proof (rnd_ge_1 d DP) as D1.
    assert (D2 : (rnd (IZR d) <= bpow radix2 (emax - 2))%R).
    { apply round_le_generic; [apply valid_fexp|apply valid_rnd|apply format_bpow; unfold emin; lia|].
      rewrite <- (IZR_Zpower radix2) by lia. apply IZR_le. cbn [radix_val radix2]. lia. }
    assert (N2 : (1 <= Rabs (rnd (IZR n)))%R).
    { apply abs_round_ge_generic; [apply valid_fexp|apply valid_rnd|apply one_format|auto]. }
    unfold Rdiv. rewrite Rabs_mult, Rabs_inv, (Rabs_pos_eq (rnd (IZR d))) by lra.
    replace (2 - emax) with (- (emax - 2)) by ring. rewrite bpow_opp.
    rewrite <- (Rmult_1_l (/ bpow radix2 (emax - 2))).
    apply Rmult_le_compat; try lra; [left; apply Rinv_0_lt_compat, bpow_gt_0|]. apply Rinv_le_contravar; lra. }
  destruct (rnd_error _ G) as [e3 [A3 B3]]. rewrite B3, B1, B2.
  pose proof (combine_errors e1 e2 e3 U A1 A2 A3) as CE.
  apply Rabs_le_inv in A2.
  replace (IZR n * (1 + e1) / (IZR d * (1 + e2)) * (1 + e3) - IZR n / IZR d)%R
    with (((1 + e1) / (1 + e2) * (1 + e3) - 1) * (IZR n / IZR d))%R by (field; lra).
  rewrite Rabs_mult. apply Rmult_le_compat_r; [apply Rabs_pos|exact CE].
Qed.

(** Converting back. *)
Lemma divides_pow2 : forall k d, 0 <= k -> 0 < d -> (d | 2 ^ k) -> exists j, 0 <= j <= k /\ d = 2 ^ j.
Proof.
  intros k d K. revert d. pattern k. apply natlike_ind; auto; clear k K.
  - intros d D [c C]. change (2 ^ 0) with 1 in C. exists 0. split; [lia|]. change (2 ^ 0) with 1. assert (d | 1) by (exists c; lia). apply Z.divide_1_r_nonneg in H; lia.
  - intros k K IH d D H. rewrite Z.pow_succ_r in H by auto.
    destruct (Zeven_odd_dec d) as [E|O].
    + apply Coq.ZArith.Zeven.Zeven_ex in E as [m E]. destruct (IH m) as [j [J1 J2]]; [lia| |].
      { destruct H as [c C]. exists c. nia. }
      exists (Z.succ j). split; [lia|]. rewrite Z.pow_succ_r by lia. lia.
    + destruct (IH d D) as [j [J1 J2]].
      { apply (Z.gauss _ 2); auto. apply Coq.ZArith.Zeven.Zodd_ex in O as [m O].
        rewrite Z.gcd_comm. apply Z.bezout_1_gcd. exists (-m), 1. lia. }
      exists j. split; [lia|auto].
Qed.

Lemma representable_parts : forall s m e q, Zpos m < 2 ^ prec ->
  (q == inject_Z (if s : bool then Zneg m else Zpos m) * (2 # 1) ^ e)%Q ->
  exactly_representable prec (Qnum (Qred q)) /\ exactly_representable prec (Zpos (Qden (Qred q))).
Proof.
  intros s m e q M Q. pose proof sizes as SZ. set (z := if s then Zneg m else Zpos m) in *.
  assert (AZ : Z.abs z = Zpos m) by (unfold z; destruct s; reflexivity).
  assert (ONE : exactly_representable prec 1).
  { exists 1, 0. split; [lia|]. split; [reflexivity|]. apply Z.pow_gt_1; lia. }
  destruct (Z.le_gt_cases 0 e) as [E|E].
  - assert (R : Qred q = Qmake (z * 2 ^ e) 1).
    { transitivity (Qred (Qmake (z * 2 ^ e) 1)).
      - apply Qred_complete. rewrite Q, <- (Qpow_Z e) by auto. rewrite <- inject_Z_mult. reflexivity.
      - apply Qcanon.Qred_identity. cbn [Qnum Qden]. apply Z.gcd_1_r. }
    rewrite R. cbn [Qnum Qden]. split; auto. exists z, e. split; [lia|]. split; [reflexivity|lia].
  - assert (QP : (inject_Z (2 ^ (- e)) == (2 # 1) ^ (- e))%Q) by (apply Qpow_Z; lia).
    pose proof (pow2_pos (- e) ltac:(lia)) as P.
    pose proof (Qred_correct q) as RC. destruct (Qred q) as [n d] eqn:RD. cbn [Qnum Qden].
    assert (G : Z.gcd n (Zpos d) = 1).
    { pose proof (Qcanon.Qred_identity2 (Qred q) ) as I. rewrite RD in I. apply I. rewrite <- RD.
      apply Qred_complete. apply Qred_correct. }
    assert (CR : n * 2 ^ (- e) = z * Zpos d).
    { rewrite Q in RC. rewrite Qmake_Qdiv in RC. replace e with (- (- e)) in RC by ring.
      rewrite Qpower_opp, <- QP in RC. 
      assert (K : (inject_Z n / inject_Z (Zpos d) == inject_Z z / inject_Z (2 ^ (- e)))%Q) by exact RC.
      rewrite qdiv_eq in K by lia. exact K. }
    assert (D1 : (Zpos d | 2 ^ (- e))).
    { apply (Z.gauss _ n); [exists z; lia|]. now rewrite Z.gcd_comm. }
    assert (N1 : (n | z)).
    { apply (Z.gauss _ (Zpos d)); [exists (2 ^ (- e)); lia|auto]. }
    split.
    + exists n, 0. repeat split; try lia. apply Z.divide_abs_l, Z.divide_abs_r in N1. apply Z.divide_pos_le in N1; lia.
    + destruct (divides_pow2 (- e) (Zpos d)) as [j [J1 J2]]; auto; try lia.
      exists 1, j. split; [lia|]. split; [lia|]. apply Z.pow_gt_1; lia.
Qed.

Theorem conv_back : forall t (x : float) q r, wf_rep t -> wf_raw t r -> Z.abs (num r) <= rmax t -> Z.abs (den r) <= rmax t ->
  rmax t <= 2 ^ (emax - 1) -> float_value x = Some q -> ~ (q == 0)%Q -> same_value (value r) (Some q) ->
  conv t r = Ok x.
Proof.
  intros t x q r W WR N D M FV NZ SV. destruct (value r) as [q'|] eqn:V; [|contradiction]. cbn [same_value] in SV.
  destruct (float_value_R x q FV) as [RX FX].
  assert (RP : exactly_representable prec (Qnum (Qred q')) /\ exactly_representable prec (Zpos (Qden (Qred q')))).
  { destruct x as [s|s|s pl H|s m e H]; cbn [float_value] in FV; try discriminate; injection FV as <-.
    - exfalso. now apply NZ.
    - apply (representable_parts s m e).
      + clear - H. apply andb_prop in H as [H _]. apply Zeq_bool_eq in H. rewrite Zpos_digits2_pos in H.
        unfold SpecFloat.fexp in H. pose proof (Zpower_gt_Zdigits radix2 prec (Zpos m)) as Z. cbn [radix_val radix2] in Z.
        change (Z.abs (Zpos m)) with (Zpos m) in Z. apply Z. lia.
      + exact SV. }
  destruct RP as [EN ED]. destruct (conv_rounded t r q' W WR N D M V EN ED) as [y [Y1 [Y2 Y3]]].
  rewrite Y1. f_equal.
  assert (E : B2R prec emax y = B2R prec emax x).
  { rewrite Y3, (Qeq_eqR _ _ SV), <- RX. apply round_generic; [apply valid_rnd|apply generic_format_B2R]. }
  assert (XN : B2R prec emax x <> 0%R).
  { rewrite RX. intros X. apply NZ. apply eqR_Qeq. rewrite X. unfold Q2R; cbn; lra. }
  apply B2R_inj; auto.
  - destruct y; try discriminate; auto.
  - destruct x; try discriminate; auto.
Qed.
End Format.
