(** Facts about rational values and about [reduce]. *)

From Coq Require Import ZArith QArith Bool Lia Znumtheory Zquot Setoid Morphisms.
From Verif Require Import Machine Raw Ops Spec Machine_proofs.
Open Scope Z_scope.

Lemma iz_nz : forall z, z <> 0 -> ~ (inject_Z z == 0)%Q.
Proof. intros z H E. unfold Qeq in E; cbn in E. lia. Qed.

Lemma iz_mult : forall a b, (inject_Z (a * b) == inject_Z a * inject_Z b)%Q.
Proof. intros. now rewrite inject_Z_mult. Qed.

Lemma qdiv_form : forall a b, b <> 0 ->
  (inject_Z a / inject_Z b == (a * Z.sgn b) # (Z.to_pos (Z.abs b)))%Q.
Proof.
  intros a b H. destruct b as [|p|p]; [lia| |];
    unfold Qdiv, Qinv, inject_Z, Qmult, Qeq; cbn; lia.
Qed.

Lemma qdiv_eq : forall a b c d, b <> 0 -> d <> 0 ->
  (inject_Z a / inject_Z b == inject_Z c / inject_Z d)%Q <-> a * d = c * b.
Proof.
  intros a b c d Hb Hd. rewrite !qdiv_form by auto. unfold Qeq; cbn.
  rewrite !Z2Pos.id by lia. destruct b, d; try lia; cbn; nia.
Qed.

Lemma qdiv_le : forall a b c d, b <> 0 -> d <> 0 ->
  (inject_Z a / inject_Z b <= inject_Z c / inject_Z d)%Q
  <-> (a * d) * (b * d) <= (c * b) * (b * d).
Proof.
  intros a b c d Hb Hd. rewrite !qdiv_form by auto. unfold Qle; cbn.
  rewrite !Z2Pos.id by lia.
  assert (Hs : Z.sgn b * b = Z.abs b /\ Z.sgn d * d = Z.abs d) by (split; lia).
  assert (Hb2 : Z.abs b * Z.abs b = b * b) by lia.
  assert (Hd2 : Z.abs d * Z.abs d = d * d) by lia.
  assert (P : 0 < Z.abs b * Z.abs d) by nia.
  replace (a * d * (b * d)) with ((a * Z.sgn b * Z.abs d) * (Z.abs b * Z.abs d)).
  2:{ transitivity (a * (Z.sgn b * Z.abs b) * (Z.abs d * Z.abs d)); [ring|].
      rewrite Hd2. replace (Z.sgn b * Z.abs b) with b by lia. ring. }
  replace (c * b * (b * d)) with ((c * Z.sgn d * Z.abs b) * (Z.abs b * Z.abs d)).
  2:{ transitivity (c * (Z.sgn d * Z.abs d) * (Z.abs b * Z.abs b)); [ring|].
      rewrite Hb2. replace (Z.sgn d * Z.abs d) with d by lia. ring. }
  split; intro H.
  - apply Z.mul_le_mono_nonneg_r; lia.
  - eapply Z.mul_le_mono_pos_r; eauto.
Qed.

Lemma qdiv_1 : forall a, (inject_Z a / inject_Z 1 == inject_Z a)%Q.
Proof. intros. unfold Qdiv, Qinv, Qmult, Qeq; cbn. lia. Qed.

Lemma Qlt_nle : forall x y, (x < y)%Q <-> ~ (y <= x)%Q.
Proof. intros; split; [apply Qlt_not_le | apply Qnot_le_lt]. Qed.

Lemma qdiv_lt : forall a b c d, b <> 0 -> d <> 0 ->
  (inject_Z a / inject_Z b < inject_Z c / inject_Z d)%Q
  <-> (a * d) * (b * d) < (c * b) * (b * d).
Proof.
  intros a b c d Hb Hd.
  rewrite Qlt_nle, qdiv_le by auto. nia.
Qed.

#[global] Instance Qtrunc_proper : Proper (Qeq ==> eq) Qtrunc.
Proof.
  intros [a b] [c d] H. unfold Qeq, Qtrunc in *; cbn in *.
  rewrite <- (Z.quot_mul_cancel_r a (Zpos b) (Zpos d)) by lia.
  rewrite <- (Z.quot_mul_cancel_r c (Zpos d) (Zpos b)) by lia.
  rewrite H. f_equal. lia.
Qed.

Lemma Qtrunc_div : forall a b, b <> 0 ->
  Qtrunc (inject_Z a / inject_Z b) = Z.quot a b.
Proof.
  intros a b Hb. rewrite qdiv_form by auto. unfold Qtrunc; cbn.
  rewrite Z2Pos.id by lia.
  destruct (Z_lt_le_dec 0 b).
  - rewrite Z.sgn_pos, Z.abs_eq by lia. now rewrite Z.mul_1_r.
  - rewrite Z.sgn_neg, Z.abs_neq by lia.
    replace (a * -1) with (- a) by ring.
    rewrite Z.quot_opp_opp; auto.
Qed.

(** [same_value] is an equivalence and the specification respects it. *)
#[global] Instance same_value_equiv : Equivalence same_value.
Proof.
  split.
  - intros [x|]; cbn; [reflexivity|exact I].
  - intros [x|] [y|]; cbn; auto. intros H; now symmetry.
  - intros [x|] [y|] [z|]; cbn; auto; try tauto. intros H K; now rewrite H.
Qed.

Lemma Qeq_bool_proper : forall x x' y y', (x == x' -> y == y' ->
  Qeq_bool x y = Qeq_bool x' y')%Q.
Proof.
  intros x x' y y' Hx Hy. apply Bool.eq_iff_eq_true.
  rewrite !Qeq_bool_iff. rewrite Hx, Hy. reflexivity.
Qed.

Lemma Qle_bool_proper : forall x x' y y', (x == x' -> y == y' ->
  Qle_bool x y = Qle_bool x' y')%Q.
Proof.
  intros x x' y y' Hx Hy. apply Bool.eq_iff_eq_true.
  rewrite !Qle_bool_iff. rewrite Hx, Hy. reflexivity.
Qed.

#[global] Instance exact_opt_proper :
  Proper (eq ==> same_value ==> same_value ==> same_value) exact_opt.
Proof.
  intros op op' <- [x|] [x'|] Hx [y|] [y'|] Hy; cbn [same_value] in Hx, Hy; try tauto;
    try (now (destruct op; cbn)).
  unfold exact_opt.
  destruct op; cbn [exact same_value].
  - now rewrite Hx, Hy.
  - now rewrite Hx, Hy.
  - now rewrite Hx, Hy.
  - rewrite (Qeq_bool_proper y y' 0 0) by (auto; reflexivity).
    destruct (Qeq_bool y' 0); cbn [same_value]; auto. now rewrite Hx, Hy.
  - rewrite (Qeq_bool_proper y y' 0 0) by (auto; reflexivity).
    destruct (Qeq_bool y' 0); cbn [same_value]; auto. 
    assert (T : Qtrunc (x / y) = Qtrunc (x' / y')) by now rewrite Hx, Hy.
    rewrite T. now rewrite Hx, Hy.
Qed.

#[global] Instance exact_cmp_opt_proper :
  Proper (eq ==> same_value ==> same_value ==> eq) exact_cmp_opt.
Proof.
  intros op op' <- [x|] [x'|] Hx [y|] [y'|] Hy; cbn [same_value] in Hx, Hy; try tauto;
    try (now (destruct op; cbn)).
  unfold exact_cmp_opt.
  destruct op; cbn [exact_cmp];
    rewrite ?(Qeq_bool_proper x x' y y') by auto;
    rewrite ?(Qle_bool_proper x x' y y') by auto;
    rewrite ?(Qle_bool_proper y y' x x') by auto; reflexivity.
Qed.

Lemma value_undefined : forall r, den r = 0 -> value r = None.
Proof. intros r H. unfold value. now rewrite H. Qed.

Lemma value_defined : forall r, den r <> 0 ->
  value r = Some (inject_Z (num r) / inject_Z (den r))%Q.
Proof. intros r H. unfold value. destruct (Z.eqb_spec (den r) 0); tauto. Qed.

Lemma value_none_iff : forall r, value r = None <-> den r = 0.
Proof.
  intros r. unfold value. destruct (Z.eqb_spec (den r) 0); split; try tauto; discriminate.
Qed.

Lemma same_value_none : forall r, same_value (value r) None <-> den r = 0.
Proof.
  intros r. unfold value. destruct (Z.eqb_spec (den r) 0); cbn; tauto.
Qed.

Lemma same_value_iff : forall a b, den a <> 0 -> den b <> 0 ->
  same_value (value a) (value b) <-> num a * den b = num b * den a.
Proof.
  intros a b Ha Hb. rewrite !value_defined by auto. cbn. now apply qdiv_eq.
Qed.

Lemma is_defined_iff : forall v, is_defined v = true <-> den v <> 0.
Proof. intros. unfold is_defined. destruct (Z.eqb_spec (den v) 0); cbn; intuition congruence. Qed.

Lemma is_undefined_iff : forall v, is_undefined v = true <-> den v = 0.
Proof. intros. unfold is_undefined, is_defined. destruct (Z.eqb_spec (den v) 0); cbn; intuition congruence. Qed.

(** ** reduce *)

(** What [reduce] computes, as a relation. *)
Definition reduces_to (m : reduce_mode) (v r : raw) : Prop :=
  (den v = 0 /\ r = mkRaw 0 0) \/
  (den v <> 0 /\ exists g,
     g <> 0 /\ num v = g * num r /\ den v = g * den r
     /\ Z.gcd (num r) (den r) = 1
     /\ (m = normalize_signs_mode -> 0 < den r)
     /\ (m = ignore_signs_mode -> 0 < g)).

Lemma gcd_parts : forall n d, d <> 0 ->
  let g := Z.gcd n d in
  0 < g /\ n = g * (Z.quot n g) /\ d = g * (Z.quot d g)
  /\ Z.gcd (Z.quot n g) (Z.quot d g) = 1.
Proof.
  intros n d Hd g.
  assert (Hg : 0 < g).
  { pose proof (Z.gcd_nonneg n d). fold g in H.
    destruct (Z.eq_dec g 0) as [E|]; [|lia].
    apply Z.gcd_eq_0_r in E. contradiction. }
  destruct (Z.gcd_divide_l n d) as [x Hx]. destruct (Z.gcd_divide_r n d) as [y Hy].
  fold g in Hx, Hy.
  assert (Qn : Z.quot n g = x) by (rewrite Hx; apply Z.quot_mul; lia).
  assert (Qd : Z.quot d g = y) by (rewrite Hy; apply Z.quot_mul; lia).
  rewrite Qn, Qd. repeat split; try lia.
  assert (G : g = g * Z.gcd x y).
  { unfold g at 1. rewrite Hx, Hy at 1.
    rewrite Z.gcd_mul_mono_r. rewrite (Z.abs_eq g) by lia. ring. }
  nia.
Qed.

Lemma quot_in : forall t a g, wf_rep t -> in_rep t a = true -> 0 < g ->
  in_rep t (Z.quot a g) = true.
Proof.
  intros t a g Hw Ha Hg. apply in_rep_iff in Ha. apply in_rep_iff.
  pose proof (rmin_nonpos t Hw). pose proof (rmax_big t Hw).
  pose proof (abs_quot_le a g ltac:(lia)).
  destruct (Z_le_gt_dec 0 a).
  - pose proof (quot_nonneg a g). lia.
  - assert (Z.quot a g <= 0).
    { pose proof (quot_nonneg (- a) g ltac:(lia) ltac:(lia)).
      rewrite Z.quot_opp_l in H2 by lia. lia. }
    lia.
Qed.

Lemma wf_raw_abs : forall t v, wf_rep t -> wf_raw t v ->
  (rsigned t = false -> 0 <= num v /\ 0 <= den v).
Proof.
  intros t v Hw [H1 H2] U. apply in_rep_iff in H1, H2.
  rewrite (rmin_unsigned t U) in *. lia.
Qed.

Lemma abs_in_rep_iff : forall t v, wf_rep t ->
  in_rep t (Z.abs v) = true <-> Z.abs v <= rmax t.
Proof.
  intros t v Hw. rewrite in_rep_iff. pose proof (rmin_nonpos t Hw). lia.
Qed.

Lemma reduce_ignore_total : forall t v, wf_rep t -> wf_raw t v ->
  Z.abs (num v) <= rmax t -> Z.abs (den v) <= rmax t ->
  exists r, reduce_ignore_signs t v = Ok r.
Proof.
  intros t v Hw [Hn Hd] An Ad. unfold reduce_ignore_signs.
  destruct (is_undefined v) eqn:U; [eauto|].
  assert (den v <> 0) by (rewrite <- is_undefined_iff, U; discriminate).
  pose proof (gcd_parts (num v) (den v) H) as [G _].
  unfold std_gcd. rewrite (proj2 (abs_in_rep_iff t _ Hw) An), (proj2 (abs_in_rep_iff t _ Hw) Ad).
  cbn [andb bind].
  rewrite m_div_in by (try lia; auto using quot_in). cbn [bind].
  rewrite m_div_in by (try lia; auto using quot_in). cbn [bind]. eauto.
Qed.

Lemma reduce_ignore_spec : forall t v r, wf_rep t -> wf_raw t v ->
  reduce_ignore_signs t v = Ok r ->
  wf_raw t r /\ reduces_to ignore_signs_mode v r
  /\ (den v <> 0 -> Z.abs (num v) <= rmax t /\ Z.abs (den v) <= rmax t).
Proof.
  intros t v r Hw [Hn Hd] H. unfold reduce_ignore_signs in H.
  destruct (is_undefined v) eqn:U.
  - apply is_undefined_iff in U. inversion H; subst; clear H.
    pose proof (rmin_nonpos t Hw). pose proof (rmax_big t Hw).
    repeat split; try (apply in_rep_iff; cbn; lia); try (intros; contradiction).
    left; auto.
  - assert (D : den v <> 0) by (rewrite <- is_undefined_iff, U; discriminate).
    pose proof (gcd_parts (num v) (den v) D) as [G [P1 [P2 P3]]].
    inv_bind H. apply std_gcd_ok in E as [-> [A1 A2]].
    rewrite m_div_in in E0 by (try lia; auto using quot_in).
    rewrite m_div_in in E1 by (try lia; auto using quot_in).
    inversion E0; inversion E1; inversion H; subst; clear E0 E1 H.
    rewrite abs_in_rep_iff in A1, A2 by auto.
    repeat split; cbn; auto using quot_in.
    right. split; auto. exists (Z.gcd (num v) (den v)). cbn.
    repeat split; auto; try lia. discriminate.
Qed.

Lemma reduces_bound : forall m v r, reduces_to m v r ->
  Z.abs (num r) <= Z.abs (num v) /\ Z.abs (den r) <= Z.abs (den v).
Proof.
  intros m v r [[H ->]|[H [g [G [Hn [Hd _]]]]]]; cbn.
  - lia.
  - rewrite Hn, Hd, !Z.abs_mul. nia.
Qed.

Lemma normalize_spec : forall t v r, wf_rep t -> wf_raw t v ->
  (den v <> 0 -> Z.abs (num v) <= rmax t /\ Z.abs (den v) <= rmax t) ->
  (den v = 0 -> num v = 0) ->
  normalize_signs t v = Ok r ->
  wf_raw t r /\
  ((0 < den v /\ r = v) \/ (den v <= 0 /\ r = mkRaw (- num v) (- den v))).
Proof.
  intros t v r Hw [Hn Hd] HB H0 H. unfold normalize_signs in H.
  destruct (Z.gtb_spec (den v) 0).
  - inversion H; subst. repeat split; auto.
  - inv_bind H. inversion H; subst; clear H. unfold m_neg in *.
    pose proof (rmax_big t Hw).
    assert (I1 : in_rep t (- num v) = true /\ in_rep t (- den v) = true).
    { destruct (Z.eq_dec (den v) 0).
      - rewrite H0, e by auto. split; apply in_rep_abs; auto; cbn; lia.
      - apply in_rep_iff in Hn, Hd. destruct (rsigned t) eqn:S.
        + split; apply in_rep_abs; auto; try (destruct HB; auto; lia); congruence.
        + rewrite (rmin_unsigned t S) in *. lia. }
    destruct I1 as [I1 I2]. rewrite arith_in in E, E0 by auto.
    inversion E; inversion E0; subst. repeat split; auto.
Qed.

Lemma normalize_total : forall t v, wf_rep t -> wf_raw t v ->
  Z.abs (num v) <= rmax t /\ Z.abs (den v) <= rmax t ->
  (den v = 0 -> num v = 0) ->
  exists r, normalize_signs t v = Ok r.
Proof.
  intros t v Hw [Hn Hd] HB H0. unfold normalize_signs.
  destruct (Z.gtb_spec (den v) 0); [eauto|].
  pose proof (rmax_big t Hw).
  assert (I1 : in_rep t (- num v) = true /\ in_rep t (- den v) = true).
  { destruct (Z.eq_dec (den v) 0).
    - rewrite H0, e by auto. split; apply in_rep_abs; auto; cbn; lia.
    - apply in_rep_iff in Hn, Hd. destruct (rsigned t) eqn:S.
      + split; apply in_rep_abs; auto; try lia; congruence.
      + rewrite (rmin_unsigned t S) in *. lia. }
  destruct I1 as [I1 I2]. unfold m_neg. rewrite !arith_in by auto. cbn. eauto.
Qed.

Lemma reduce_spec : forall t v m r, wf_rep t -> wf_raw t v ->
  reduce t v m = Ok r ->
  wf_raw t r /\ reduces_to m v r
  /\ (den v <> 0 -> Z.abs (num v) <= rmax t /\ Z.abs (den v) <= rmax t).
Proof.
  intros t v m r Hw Hv H. destruct m; cbn in H.
  - unfold reduce_normalize_signs in H. inv_bind H.
    apply reduce_ignore_spec in E as [W [R B]]; auto.
    assert (Hz : den a = 0 -> num a = 0 /\ den v = 0).
    { destruct R as [[D ->]|[D [g [G [Hn [Hd _]]]]]]; cbn; [auto|].
      intros Z. rewrite Z in Hd. lia. }
    pose proof (reduces_bound _ _ _ R).
    apply normalize_spec in H; auto.
    + destruct H as [W' H]. repeat split; try apply W'; try (now apply B).
      destruct R as [[D ->]|[D [g [G [Hn [Hd [Hg [_ Hi]]]]]]]].
      * left; split; auto. cbn in H. destruct H as [[? ?]|[_ ->]]; [lia|reflexivity].
      * right; split; auto. specialize (Hi eq_refl).
        destruct H as [[P ->]|[P ->]].
        -- exists g. repeat split; auto.
        -- exists (- g). cbn. repeat split; try lia; try discriminate.
           ++ now rewrite Z.gcd_opp_l, Z.gcd_opp_r.
    + intros Da. destruct R as [[D ->]|[D _]]; [cbn in Da; lia|]. specialize (B D). lia.
    + intros Da. now apply Hz.
  - now apply reduce_ignore_spec.
Qed.

Lemma reduce_total : forall t v m, wf_rep t -> wf_raw t v ->
  Z.abs (num v) <= rmax t -> Z.abs (den v) <= rmax t ->
  exists r, reduce t v m = Ok r.
Proof.
  intros t v m Hw Hv An Ad. destruct m; cbn.
  - unfold reduce_normalize_signs.
    destruct (reduce_ignore_total t v Hw Hv An Ad) as [r Hr]. rewrite Hr. cbn.
    apply reduce_ignore_spec in Hr as [W [R B]]; auto.
    pose proof (reduces_bound _ _ _ R).
    apply normalize_total; auto; [lia|].
    destruct R as [[D ->]|[D [g [G [Hn [Hd _]]]]]]; cbn; [auto|].
    intros Z. rewrite Z in Hd. lia.
  - now apply reduce_ignore_total.
Qed.

Lemma reduce_undefined : forall t v m, wf_rep t -> den v = 0 ->
  reduce t v m = Ok (mkRaw 0 0).
Proof.
  intros t v m Hw D.
  assert (E : reduce_ignore_signs t v = Ok (mkRaw 0 0)).
  { unfold reduce_ignore_signs. now rewrite (proj2 (is_undefined_iff v) D). }
  destruct m; cbn; auto. unfold reduce_normalize_signs. rewrite E. cbn.
  unfold normalize_signs; cbn. unfold m_neg; cbn.
  pose proof (rmax_big t Hw).
  now rewrite arith_in by (auto; apply in_rep_abs; auto; cbn; lia).
Qed.

Lemma reduces_same_value : forall m v r, reduces_to m v r ->
  same_value (value r) (value v).
Proof.
  intros m v r [[D ->]|[D [g [G [Hn [Hd [Hg _]]]]]]].
  - rewrite (value_undefined v D). reflexivity.
  - assert (den r <> 0) by nia.
    apply same_value_iff; auto. rewrite Hn, Hd. ring.
Qed.

Lemma reduces_den_zero : forall m v r, reduces_to m v r -> (den r = 0 <-> den v = 0).
Proof.
  intros m v r [[D ->]|[D [g [G [Hn [Hd [Hg _]]]]]]]; cbn; [tauto|]. nia.
Qed.

Lemma reduces_den_sign : forall v r, reduces_to ignore_signs_mode v r ->
  Z.sgn (den r) = Z.sgn (den v).
Proof.
  intros v r [[D ->]|[D [g [G [Hn [Hd [Hg [_ P]]]]]]]]; cbn; [now rewrite D|].
  specialize (P eq_refl). rewrite Hd, Z.sgn_mul. lia.
Qed.

Lemma reduces_den_pos : forall v r, reduces_to normalize_signs_mode v r ->
  den v <> 0 -> 0 < den r.
Proof.
  intros v r [[D ->]|[D [g [G [Hn [Hd [Hg [P _]]]]]]]] H; [contradiction|auto].
Qed.

Lemma reduces_canonical : forall v r, reduces_to normalize_signs_mode v r -> canonical r.
Proof.
  intros v r [[D ->]|[D [g [G [Hn [Hd [Hg [P _]]]]]]]]; [left|right]; cbn; auto.
Qed.

(** Canonical fractions with equal values are identical. *)
Lemma canonical_unique : forall a b, canonical a -> canonical b ->
  same_value (value a) (value b) -> a = b.
Proof.
  intros [na da] [nb db] Ha Hb H. unfold canonical in *; cbn in *.
  destruct Ha as [[-> ->]|[Pa Ga]], Hb as [[-> ->]|[Pb Gb]]; auto.
  - rewrite (value_undefined (mkRaw 0 0)) in H by auto.
    symmetry in H. rewrite same_value_none in H. cbn in H. lia.
  - rewrite (value_undefined (mkRaw 0 0)) in H by auto.
    rewrite same_value_none in H. cbn in H. lia.
  - rewrite same_value_iff in H by (cbn; lia). cbn in H.
    assert (D1 : (da | db)).
    { apply (Gauss da na db); [|now apply Zgcd_1_rel_prime; rewrite Z.gcd_comm].
      exists nb. lia. }
    assert (D2 : (db | da)).
    { apply (Gauss db nb da); [|now apply Zgcd_1_rel_prime; rewrite Z.gcd_comm].
      exists na. lia. }
    assert (da = db) by (apply Z.divide_antisym_nonneg; auto; lia).
    subst. assert (na = nb) by nia. now subst.
Qed.
