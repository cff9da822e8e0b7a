(** Conversion of floating-point numbers to fractions of unsigned integers. *)

From Coq Require Import ZArith Znumtheory QArith Qabs Qpower List Bool Lia Lqa.
From Flocq Require Import IEEE754.BinarySingleNaN.
From Flocq Require Import IEEE754.Binary IEEE754.Bits.
From Verif Require Import Machine Raw Ops Spec Fraction Fmath Limits Float Float_spec Mixed_spec Unsigned_spec.
From Verif Require Import Machine_proofs Value_proofs Ops_proofs Algebra_proofs Fraction_proofs Fmath_proofs Fmath2_proofs
  Literals_proofs Mixed_proofs Tight_proofs Float_proofs Float2_proofs Float4_proofs Unsigned_proofs.
Open Scope Z_scope.

Lemma wrap_pow2 : forall t k, wf_rep t -> 2 ^ k <= rmax t -> wrap t (2 ^ k) = 2 ^ k.
Proof.
  intros t k W K. apply wrap_id; auto. apply in_rep_iff. pose proof (rmin_nonpos t W).
  pose proof (Z.pow_nonneg 2 k). lia.
Qed.

Lemma not_minus : forall op a, op <> Minus -> no_borrow op a.
Proof. intros op a N E. contradiction. Qed.

Lemma fields_unsigned : forall o t u mb eb m e r, widens t u -> 0 < mb <= rbits t - 1 -> rbits t < 2 ^ 31 ->
  1 < eb <= 30 -> 0 <= m < 2 ^ mb -> 0 <= e < 2 ^ eb - 1 ->
  of_fields (denote o) u mb eb false m e = Ok r -> of_fields (denote o) t mb eb false m e = Ok r.
Proof.
  intros o t u mb eb m e r WD M B EB Hm He H. pose proof WD as [W [T [S U]]].
  pose proof (widens_range t u WD) as [RM [RN WU]]. assert (SR : signed_rep u) by (split; auto).
  pose proof (pow2_le eb 30 ltac:(lia)) as P30. pose proof (pow2_pos (eb - 1) ltac:(lia)) as P0.
  pose proof (pow2_lt (eb - 1) 30 ltac:(lia)) as P29.
  change (2 ^ 30) with 1073741824 in *. change (2 ^ 31) with 2147483648 in B.
  set (E := e - (2 ^ (eb - 1) - 1)) in *.
  assert (HE : Z.abs E <= rbits t - 1).
  { destruct (Z.lt_trichotomy (Z.abs E) (rbits u - 1)) as [G|[G|G]]; [lia| |]; exfalso.
    - revert H. apply fields_edge; auto; try lia; change (2 ^ 31) with 2147483648; lia.
    - rewrite (fields_out 0 1 ltac:(lia) o u mb eb false m e) in H; auto; try discriminate; try lia; fold E; change (2 ^ 31) with 2147483648; lia. }
  rewrite fields_unfold in H by (auto; try lia; change (2 ^ 31) with 2147483648; lia). fold E in H.
  inv_bind H. rename E0 into X, E1 into Y, E2 into P. rewrite f_arith_self in *.
  assert (RT : rmax t = 2 ^ rbits t - 1) by (unfold rmax; now rewrite T).
  assert (PK : forall k, 0 <= k <= rbits t - 1 -> 0 < 2 ^ k <= rmax t).
  { intros k K. pose proof (pow2_pos k ltac:(lia)). pose proof (pow2_lt k (rbits t) ltac:(lia)). lia. }
  assert (IN : forall z, 0 <= z <= rmax t -> in_rep t z = true) by (intros z Z; apply in_rep_iff; lia).
  pose proof (PK mb ltac:(lia)) as PM. pose proof (rmax_big t W) as RB.
  unfold of_fields. destruct (Z.eqb_spec e (2 ^ eb - 1)); [lia|]. cbn [andb bind].
  rewrite mu_pow2_ok by (auto; lia). destruct (Z.ltb_spec mb (rbits t)); [|lia]. cbn [bind].
  rewrite wrap_pow2 by (auto; lia). unfold cast. rewrite (wrap_id t m) by (auto; apply IN; lia).
  rewrite !f_arith_self.
  assert (WA : wf_args t (IR 1 (mkRaw m (2 ^ mb)))) by (repeat split; cbn [num den]; apply IN; lia).
  destruct (unsigned_arith o t u _ _ _ WD WA (not_minus Plus _ ltac:(discriminate)) X) as [X' _].
  rewrite X'. cbn [bind]. rewrite f_arith_self.
  pose proof (arith_wf o t _ _ _ W WA X') as WX.
  assert (WB : wf_args t (IR 1 a)) by (split; auto; apply IN; lia).
  destruct (unsigned_arith o t u _ _ _ WD WB (not_minus Multiplies _ ltac:(discriminate)) Y) as [Y' _].
  rewrite Y'. cbn [bind]. pose proof (arith_wf o t _ _ _ W WB Y') as WY.
  rewrite f_pow2_raw in P by (auto; try lia; change (2 ^ 31) with 2147483648; lia). injection P as <-.
  fold E. rewrite f_pow2_eq by (auto; lia). destruct (Z.ltb_spec (Z.abs E) (rbits t)); [|lia]. cbn [bind].
  assert (PW : (if E >=? 0 then mkRaw (wrap t (2 ^ E)) 1 else mkRaw 1 (wrap t (2 ^ (- E)))) =
               (if E >=? 0 then mkRaw (2 ^ E) 1 else mkRaw 1 (2 ^ (- E)))).
  { destruct (Z.geb_spec E 0); f_equal; apply wrap_pow2; auto; apply PK; lia. }
  rewrite PW, f_arith_self.
  assert (WC : wf_args t (RR a0 (if E >=? 0 then mkRaw (2 ^ E) 1 else mkRaw 1 (2 ^ (- E))))).
  { split; auto. destruct (Z.geb_spec E 0); split; cbn [num den]; apply IN; try lia;
      [pose proof (PK E ltac:(lia))|pose proof (PK (- E) ltac:(lia))]; lia. }
  destruct (unsigned_arith o t u _ _ _ WD WC (not_minus Multiplies _ ltac:(discriminate)) H) as [H' _]. exact H'.
Qed.

Section Format.
Variables mw ew : Z.
Hypothesis Hmw : 0 < mw.
Hypothesis Hew : 0 < ew.
Hypothesis Hew1 : 1 < ew <= 30.
Let prec := mw + 1.
Let emax := 2 ^ (ew - 1).
Hypothesis Hmax : mw + 1 < emax.

Let float := binary_float prec emax.
Let bits := bits_of_binary_float mw ew.

Lemma positive_fields : forall (x : float) q, float_value x = Some q -> (0 < q)%Q ->
  exists m e, split_bits_of_binary_float mw ew x = (false, m, e) /\ 0 <= m < 2 ^ mw /\ 0 <= e < 2 ^ ew - 1.
Proof.
  intros x q V P. pose proof (emax_2 mw ew Hew) as E2. fold emax in E2.
  destruct (Qlt_le_dec (Qabs q) ((2 # 1) ^ (2 - emax))) as [L|L].
  - destruct (small_fields mw ew Hmw Hew x q V L) as [s [m [F M]]].
    destruct x as [sx|sx|sx pl HP|sx mx ex HB]; cbn [float_value] in V; try discriminate; injection V as <-; [lra|].
    destruct sx.
    + exfalso. pose proof (Qpow_pos ex). assert (inject_Z (Zneg mx) < 0)%Q by (change 0%Q with (inject_Z 0); rewrite <- Zlt_Qlt; lia).
      assert (inject_Z (Zneg mx) * (2 # 1) ^ ex < 0)%Q; [|lra].
      setoid_replace 0%Q with (0 * (2 # 1) ^ ex)%Q by ring. apply Qmult_lt_compat_r; auto.
    + exists m, 0. assert (s = false).
      { cbn [split_bits_of_binary_float] in F. destruct (Z.leb_spec 0 (Zpos mx - 2 ^ mw)); congruence. }
      subst s. split; auto. split; auto. pose proof (pow2_le 1 (ew - 1) ltac:(lia)). change (2 ^ 1) with 2 in H. fold emax in H. lia.
  - destruct (normal_fields mw ew Hmw Hew x q V L) as [s [m [e [F [M [E [V1 _]]]]]]].
    destruct s; [exfalso|exists m, e; split; auto; split; auto; lia].
    pose proof (Qpow_pos (e - (2 ^ (ew - 1) - 1) - mw)) as PP. set (w := ((2 # 1) ^ (e - (2 ^ (ew - 1) - 1) - mw))%Q) in *.
    rewrite V1 in P. pose proof (pow2_pos mw ltac:(lia)).
    assert (inject_Z (sgn true * (2 ^ mw + m)) < 0)%Q by (change 0%Q with (inject_Z 0); rewrite <- Zlt_Qlt; cbn [sgn]; lia).
    assert (inject_Z (sgn true * (2 ^ mw + m)) * w < 0)%Q; [|lra].
    setoid_replace 0%Q with (0 * w)%Q by ring. apply Qmult_lt_compat_r; auto.
Qed.

Theorem of_float_unsigned : forall o t u n (x : float) q r, widens t u -> 8 * Z.of_nat n = mw + ew + 1 ->
  mw + 1 <= rbits t < 2 ^ 31 -> float_value x = Some q -> (0 < q)%Q ->
  floating_point_to_fraction (denote o) u little n mw ew (bits x) = Ok r ->
  floating_point_to_fraction (denote o) t little n mw ew (bits x) = Ok r.
Proof.
  intros o t u n x q r WD N B V P H. pose proof WD as [W _]. pose proof (widens_range t u WD) as [_ [_ WU]].
  unfold bits in *. rewrite (of_float_fields mw ew Hmw Hew Hew1) in H |- * by auto.
  destruct (positive_fields x q V P) as [m [e [F [M E]]]]. rewrite F in H |- *.
  eapply fields_unsigned; eauto; lia.
Qed.
End Format.

Lemma unsigned_value : forall t v q, rsigned t = false -> wf_raw t v -> value v = Some q -> (0 <= q)%Q.
Proof.
  intros t v q T A V. destruct (wf_nonneg t v T A) as [N D]. unfold value in V.
  destruct (Z.eqb_spec (den v) 0); [discriminate|]. injection V as <-.
  apply Qle_shift_div_l; [change 0%Q with (inject_Z 0); rewrite <- Zlt_Qlt; lia|].
  setoid_replace (0 * inject_Z (den v))%Q with (inject_Z 0) by ring. rewrite <- Zle_Qle. lia.
Qed.

Lemma of_float_wf : forall o t n mw ew u r, wf_rep t ->
  floating_point_to_fraction (denote o) t little n mw ew u = Ok r -> wf_raw t r.
Proof.
  intros o t n mw ew u r W H. unfold floating_point_to_fraction in H.
  assert (ONE : in_rep t 1 = true) by (apply in_rep_iff; pose proof (rmax_big t W); pose proof (rmin_nonpos t W); lia).
  assert (ZERO : in_rep t 0 = true) by (apply in_rep_iff; pose proof (rmax_big t W); pose proof (rmin_nonpos t W); lia).
  destruct (offsets little mw ew) as [[so eo] mo].
  destruct (andb _ _); [injection H as <-; split; auto|]. inv_all.
  rewrite !f_arith_self in *.
  assert (CA : forall z, in_rep t (cast t z) = true) by (intros; apply wrap_in; auto).
  assert (P2 : forall z s, mu_pow2 t z = Ok s -> in_rep t s = true).
  { intros z s S. unfold mu_pow2 in S. inv_all. auto. }
  assert (A0 : in_rep t a = true).
  { destruct (extract_bit_field _ _ 1 =? 0); [now injection E as <-|]. unfold m_neg, arith in E.
    destruct (rsigned t); [|injection E as <-; now apply wrap_in].
    match type of E with context [in_rep t ?z] => destruct (in_rep t z) eqn:I end; [|discriminate]. now injection E as <-. }
  assert (A6 : wf_raw t a6).
  { unfold f_pow2 in E6. destruct (a2 >=? 0); inv_all; split; cbn [num den f_of_int]; eauto. }
  assert (A4 : wf_raw t a4) by (eapply arith_wf in E4; eauto; repeat split; cbn [num den]; eauto).
  assert (A5 : wf_raw t a5) by (eapply arith_wf in E5; eauto; split; auto).
  eapply arith_wf in H; eauto. split; auto.
Qed.
