(** Totality and round trips of mixed numbers. *)

From Coq Require Import ZArith QArith List Bool Lia Lqa.
From Verif Require Import Machine Raw Ops Spec Fraction Fraction_spec Fmath Fmath_spec Mixed Mixed_spec Hash.
From Verif Require Import Machine_proofs Value_proofs Ops_proofs Total_proofs Algebra_proofs Qtrunc_proofs Fraction_proofs
  Fmath_proofs Limits_proofs Literals_proofs Mixed_proofs.
Import ListNotations.
Open Scope Z_scope.

Lemma in_rep_signed_abs : forall t v, signed_rep t -> Z.abs v <= rmax t -> in_rep t v = true.
Proof. intros t v [W S] H. apply in_rep_abs; auto. congruence. Qed.

Lemma mu_abs_total : forall t v, signed_rep t -> Z.abs v <= rmax t -> mu_abs t v = Ok (Z.abs v).
Proof.
  intros t v SR H. pose proof SR as [W S]. unfold mu_abs. destruct (Z.geb_spec v 0).
  - now rewrite Z.abs_eq.
  - unfold m_neg. rewrite arith_in; auto; [f_equal; lia|]. apply in_rep_signed_abs; auto. lia.
Qed.

Lemma is_improper_total : forall t v B, signed_rep t -> raw_bounded B v -> B <= rmax t ->
  is_improper t v = Ok (negb (Z.abs (num v) <? Z.abs (den v))).
Proof.
  intros t v B SR [X Y] L. unfold is_improper, is_proper. rewrite !mu_abs_total; auto; lia.
Qed.

Lemma f_trunc_total : forall t v B, signed_rep t -> raw_bounded B v -> B <= rmax t -> den v <> 0 ->
  f_trunc t v = Ok (Z.quot (num v) (den v)) /\ Z.abs (Z.quot (num v) (den v)) <= B.
Proof.
  intros t v B SR [X Y] L D. pose proof SR as [W S]. pose proof (abs_quot_le (num v) (den v) D).
  unfold f_trunc. rewrite m_div_in; auto; [split; auto; lia|]. apply in_rep_signed_abs; auto. lia.
Qed.

Theorem mixed_make_total : forall o tw tf w f B,
  signed_rep tw -> signed_rep tf -> in_rep tw w = true -> wf_raw tf f -> value f <> None ->
  1 <= B -> raw_bounded B f -> grow 2 B <= rmax tf -> Z.abs w + B + 1 <= rmax tw ->
  exists m, mixed_make (denote o) tw tf w f = Ok m.
Proof.
  intros o tw tf w f B SW SF Iw If D HB Bf G Lw. pose proof SF as [Wf Sf]. pose proof SW as [Ww Sw].
  cbn [grow] in G. set (B2 := 2 * B * B) in *. assert (B <= B2) by (unfold B2; nia).
  assert (HB2 : 1 <= B2) by lia. assert (L2 : B2 <= 2 * B2 * B2) by nia.
  assert (Dn : den f <> 0) by (intros E; apply D; now apply value_none_iff).
  pose proof (value_defined f Dn) as V.
  destruct (f_trunc_total tf f B SF Bf ltac:(lia) Dn) as [T1 T2].
  assert (Step : exists m1 q, fix_improper (denote o) tw tf (mkMixed w f) = Ok m1 /\ wf_mixed tw tf m1 /\
    raw_bounded B2 (fractional m1) /\ value (fractional m1) = Some q /\ Z.abs (whole m1) <= Z.abs w + B).
  { unfold fix_improper. cbn [whole fractional]. rewrite (is_improper_total tf f B SF Bf) by lia. cbn [bind].
    destruct (negb _).
    - rewrite T1. cbn [bind]. set (k := Z.quot (num f) (den f)) in *.
      assert (Ik : in_rep tf k = true) by (apply in_rep_signed_abs; auto; lia).
      assert (Ikw : in_rep tw k = true) by (apply in_rep_signed_abs; auto; lia).
      unfold cast. rewrite wrap_id by auto. unfold m_add.
      assert (Is : in_rep tw (w + k) = true) by (apply in_rep_signed_abs; auto; lia).
      rewrite arith_in by auto. cbn [bind].
      rewrite f_assign_fits; auto; [|split; auto]. cbn [operand_args].
      destruct (total_step o tf Minus (RI f k) B (inject_Z (num f) / inject_Z (den f))%Q (inject_Z k)
        (inject_Z (num f) / inject_Z (den f) - inject_Z k)%Q) as [r [R1 [R2 [R3 R4]]]]; auto.
      + split; auto.
      + cbn [left_value]. rewrite V. apply same_refl.
      + apply same_refl.
      + split; auto.
      + fold B2. lia.
      + rewrite R1. cbn [bind]. destruct (value r) as [q|] eqn:Q; [|contradiction].
        exists (mkMixed (w + k) r), q. repeat split; auto; try apply R2; try apply R3. cbn [whole]. lia.
    - eexists _, _. split; [reflexivity|]. cbn [whole fractional]. rewrite V.
      repeat split; auto; try apply If; try (destruct Bf; lia). }
  destruct Step as [m1 [q [E [[M1 M2] [Bm [Vm Lm]]]]]].
  unfold mixed_make, mixed_fix. rewrite E. cbn [bind]. unfold fix_signs.
  destruct (one_in tf SF) as [I1 I2].
  assert (Plus1 : forall z, z = 1 \/ z = -1 ->
    exists r, p_arith (denote o) tf Plus (IR z (fractional m1)) = Ok r).
  { intros z Hz. destruct (total_step o tf Plus (IR z (fractional m1)) B2 (inject_Z z) q (inject_Z z + q)%Q)
      as [r [R1 _]]; auto.
    - split; auto. destruct Hz; subst; auto.
    - apply same_refl.
    - cbn [right_value]. rewrite Vm. apply same_refl.
    - split; auto. destruct Hz; subst; cbn; lia.
    - eauto. }
  destruct (_ && is_negative _).
  - unfold m_sub. rewrite arith_in; auto; [|apply in_rep_signed_abs; auto; lia]. cbn [bind].
    rewrite f_arith_self. destruct (Plus1 1) as [r ->]; auto. cbn [bind]. eauto.
  - destruct (_ && is_positive _).
    + unfold m_add, m_neg. rewrite !arith_in; auto; [|apply in_rep_signed_abs; auto; lia]. cbn [bind].
      rewrite f_arith_self. destruct (Plus1 (-1)) as [r E']; auto.
      change (-(1)) with (-1). rewrite E'. cbn [bind]. eauto.
    + eauto.
Qed.

(** Unsigned whole and fractional types. *)
Theorem mixed_make_unsigned : forall o tw tf w f B,
  wf_rep tw -> wf_rep tf -> rsigned tw = false -> rsigned tf = false ->
  in_rep tw w = true -> wf_raw tf f -> value f <> None ->
  raw_bounded B f -> 2 * B * B <= rmax tf -> w + B <= rmax tw ->
  exists m, mixed_make (denote o) tw tf w f = Ok m /\ normal_form m /\
    same_value (mixed_value m) (sum_value w (value f)).
Proof.
  intros o tw tf w f B Ww Wf Sw Sf Iw If D Bf G Lw.
  assert (Dn : den f <> 0) by (intros E; apply D; now apply value_none_iff).
  pose proof (value_defined f Dn) as V.
  destruct (wf_raw_nonneg tf f If Sf) as [Nn Nd]. pose proof (in_rep_nonneg tw w Iw Sw) as Nw.
  destruct Bf as [B1 B2]. assert (1 <= B) by lia. assert (B <= rmax tf) by nia.
  unfold mixed_make, mixed_fix, fix_improper. cbn [whole fractional].
  unfold is_improper, is_proper, mu_abs.
  destruct (Z.geb_spec (num f) 0); [|lia]. destruct (Z.geb_spec (den f) 0); [|lia]. cbn [bind].
  assert (Neg : forall v, wf_raw tf v -> is_negative v = false).
  { intros v A. destruct (wf_raw_nonneg tf v A Sf). unfold is_negative. rewrite !Z.gtb_ltb.
    replace (num v <? 0) with false by (symmetry; apply Z.ltb_ge; lia).
    replace (den v <? 0) with false by (symmetry; apply Z.ltb_ge; lia).
    now rewrite andb_false_r. }
  assert (Signs : forall m, 0 <= whole m -> wf_raw tf (fractional m) -> fix_signs (denote o) tw tf m = Ok m).
  { intros m M A. unfold fix_signs. rewrite (Neg _ A), andb_false_r.
    replace (whole m <? 0) with false by (symmetry; apply Z.ltb_ge; lia). reflexivity. }
  destruct (num f <? den f) eqn:C; cbn [negb bind].
  - apply Z.ltb_lt in C. rewrite Signs; auto. eexists. split; [reflexivity|].
    split; [|unfold mixed_value; cbn [whole fractional]; apply same_refl].
    eexists. cbn [whole fractional]. split; [exact V|]. split; [apply proper_value; lia|].
    split; intros; [|lia]. change 0%Q with (inject_Z 0). apply Qle_int_div; nia.
  - apply Z.ltb_ge in C. set (k := Z.quot (num f) (den f)).
    assert (K0 : 0 <= k) by now apply quot_nonneg.
    assert (K1 : k <= B) by (pose proof (abs_quot_le (num f) (den f) Dn) as HQ; fold k in HQ; lia).
    assert (Ik : in_rep tf k = true) by (apply in_rep_iff; rewrite (rmin_unsigned tf Sf); lia).
    assert (Ikw : in_rep tw k = true) by (apply in_rep_iff; rewrite (rmin_unsigned tw Sw); lia).
    unfold f_trunc. rewrite m_div_in; auto. fold k. cbn [bind].
    unfold cast. rewrite wrap_id by auto. unfold m_add.
    rewrite arith_in; auto; [|apply in_rep_iff; rewrite (rmin_unsigned tw Sw); lia]. cbn [bind].
    rewrite f_assign_fits; auto; [|split; auto]. cbn [operand_args].
    set (q := (inject_Z (num f) / inject_Z (den f))%Q) in *.
    assert (KQ : k = Qtrunc q) by (unfold q; rewrite Qtrunc_div; auto).
    assert (Q0 : (0 <= q)%Q) by (unfold q; change 0%Q with (inject_Z 0); apply Qle_int_div; nia).
    destruct (Qtrunc_pos q Q0) as [P1 P2]. rewrite <- KQ in *.
    destruct (denote_total o tf Minus (RI f k) B) as [r [R1 [R2 [R3 R4]]]]; auto.
    + split; auto.
    + split; [exact D|discriminate].
    + split; [split; auto|lia].
    + cbn [left_value right_value]. rewrite V. split; [discriminate|]. intros _ _. exact P1.
    + rewrite R1. cbn [bind]. rewrite Signs; auto; [|cbn; lia]. eexists. split; [reflexivity|].
      cbn [left_value right_value] in R4. rewrite V in R4. destruct (value r) as [q'|] eqn:Q; cbn [exact_opt exact same_value] in R4; [|contradiction].
      split.
      * exists q'. cbn [whole fractional]. split; [exact Q|]. split; [split; rewrite R4; lra|].
        split; intros; [rewrite R4; lra|lia].
      * unfold mixed_value. cbn [whole fractional]. rewrite Q, V. cbn. rewrite R4, inject_Z_plus. ring.
Qed.

Theorem mixed_of_fraction_total : forall o tw tf to v B,
  signed_rep tw -> signed_rep tf -> signed_rep to -> wf_raw to v -> value v <> None ->
  1 <= B -> raw_bounded B v -> 2 * B * B <= rmax to -> B <= rmax tw ->
  exists m, mixed_of_fraction (denote o) tw tf to v = Ok m.
Proof.
  intros o tw tf to v B SW SF SO A D HB Bv G Lw. pose proof SO as [Wo So]. pose proof SW as [Ww Sw].
  assert (Dn : den v <> 0) by (intros E; apply D; now apply value_none_iff).
  pose proof (value_defined v Dn) as V.
  destruct (f_trunc_total to v B SO Bv ltac:(nia) Dn) as [T1 T2].
  unfold mixed_of_fraction. rewrite T1. cbn [bind]. set (k := Z.quot (num v) (den v)) in *.
  assert (Ik : in_rep to k = true) by (apply in_rep_signed_abs; auto; nia).
  assert (Ikw : in_rep tw k = true) by (apply in_rep_signed_abs; auto; lia).
  unfold cast. rewrite (wrap_id tw) by auto. rewrite (wrap_id to) by auto. rewrite f_arith_self.
  destruct (total_step o to Minus (RI v k) B (inject_Z (num v) / inject_Z (den v))%Q (inject_Z k)
        (inject_Z (num v) / inject_Z (den v) - inject_Z k)%Q) as [r [R1 [R2 [R3 R4]]]]; auto.
  - split; auto.
  - cbn [left_value]. rewrite V. apply same_refl.
  - apply same_refl.
  - split; auto.
  - rewrite R1. cbn [bind]. eauto.
Qed.

(** Converting to a mixed number of the same representation and back. *)
Theorem mixed_round_trip : forall o t v m r,
  signed_rep t -> wf_raw t v -> mixed_of_fraction (denote o) t t t v = Ok m ->
  mixed_as_fraction (denote o) t t m = Ok r ->
  same_value (value r) (value v) /\ (output_canonical o = true -> canonical v -> r = v).
Proof.
  intros o t v m r S A H1 H2. pose proof S as [W Sg].
  assert (T : trunc_fits t v) by (eapply of_fraction_trunc_fits; eauto; lia).
  destruct (mixed_of_fraction_spec o t t t v m S S S A (Z.le_refl _) T H1) as [M [N [q [Vq [_ X]]]]].
  destruct (as_fraction_exact o t t m r S S M H2) as [Wr E].
  assert (Q : same_value (value r) (value v)).
  { eapply same_trans; [exact E|]. rewrite Vq. exact X. }
  split; auto. intros C Cv. apply canonical_unique; auto.
  unfold mixed_as_fraction in H2. rewrite f_arith_self in H2. rewrite common_self in *.
  destruct M as [M1 M2].
  assert (WA : wf_args t (IR (cast t (whole m)) (f_convert t t (fractional m)))).
  { unfold cast. rewrite wrap_id by auto. unfold f_convert. rewrite conv_raw_id by auto. split; auto. }
  eapply (denote_canonical o t Plus _ r W WA); eauto.
Qed.
