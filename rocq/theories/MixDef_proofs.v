(** C91: when operations on mixed numbers are defined. *)

From Coq Require Import ZArith QArith Qabs List Bool Lia Lqa.
From Verif Require Import Machine Raw Ops Spec Fraction Fraction_spec Fmath Fmath_spec Mixed Mixed_spec Defined_spec Unary_spec MixDef_spec.
From Verif Require Import Machine_proofs Value_proofs Ops_proofs Total_proofs Algebra_proofs Qtrunc_proofs Fraction_proofs
  Fmath_proofs Limits_proofs Literals_proofs Mixed_proofs Mixed2_proofs Defined_proofs Defined2_proofs Mixed3_proofs Unary_proofs LitDef_proofs.
Import ListNotations.
Open Scope Z_scope.

Lemma ir_plus_fits : forall t z f q, signed_rep t -> raw_bounded (rmax t) f -> value f = Some q ->
  Z.abs (z * low_den q) <= rmax t -> Z.abs (z * low_den q + low_num q) <= rmax t ->
  ok (p_arith (denote defaults) t Plus (IR z f)).
Proof.
  intros t z f q SR [BN BD] V P N. pose proof SR as [W S]. rewrite io_ir.
  destruct (reduce_low t f q SR BN BD V) as [s [U [-> [A1 [A2 _]]]]]. cbn [bind].
  pose proof (low_den_pos q). cbn [p_arith safe p_plus_ir]. unfold safe_plus_ir, safe_plus_ri. cbn [num den]. unfold m_mul, m_add.
  rewrite arith_in by (auto; apply range_iff; auto; destruct U as [-> | ->]; lia). cbn [bind].
  rewrite arith_in by (auto; apply range_iff; auto; destruct U as [-> | ->]; lia). cbn [bind].
  apply reduce_iff; auto; [split; cbn [num den]; apply range_iff; auto; destruct U as [-> | ->]; lia|].
  right. cbn [num den]. destruct U as [-> | ->]; lia.
Qed.

Lemma ri_minus_fits : forall t z f q, signed_rep t -> raw_bounded (rmax t) f -> value f = Some q ->
  Z.abs (z * low_den q) <= rmax t -> Z.abs (low_num q - z * low_den q) <= rmax t ->
  ok (p_arith (denote defaults) t Minus (RI f z)).
Proof.
  intros t z f q SR [BN BD] V P N. pose proof SR as [W S]. rewrite io_ri.
  destruct (reduce_low t f q SR BN BD V) as [s [U [-> [A1 [A2 _]]]]]. cbn [bind].
  pose proof (low_den_pos q). cbn [p_arith safe p_minus_ri]. unfold safe_minus_ri. cbn [num den]. unfold m_mul, m_sub.
  rewrite arith_in by (auto; apply range_iff; auto; destruct U as [-> | ->]; lia). cbn [bind].
  rewrite arith_in by (auto; apply range_iff; auto; destruct U as [-> | ->]; lia). cbn [bind].
  apply reduce_iff; auto; [split; cbn [num den]; apply range_iff; auto; destruct U as [-> | ->]; lia|].
  right. cbn [num den]. destruct U as [-> | ->]; lia.
Qed.

Lemma bounded_low : forall t f q, signed_rep t -> raw_bounded (rmax t) f -> value f = Some q ->
  Z.abs (low_num q) <= rmax t /\ low_den q <= rmax t.
Proof.
  intros t f q SR [BN BD] V. destruct (reduce_low t f q SR BN BD V) as [s [_ [_ [A1 [A2 _]]]]]. auto.
Qed.

Lemma Qtrunc_low : forall q, Qtrunc q = Z.quot (low_num q) (low_den q).
Proof.
  intros q. pose proof (low_den_pos q). rewrite <- (Qtrunc_div (low_num q) (low_den q)) by lia.
  apply Qtrunc_proper. symmetry. apply low_value.
Qed.

(** Removing the whole part of a fraction. *)
Lemma minus_trunc_ok : forall t f q, signed_rep t -> raw_bounded (rmax t) f -> value f = Some q ->
  ok (p_arith (denote defaults) t Minus (RI f (Qtrunc q))).
Proof.
  intros t f q SR B V. destruct (bounded_low t f q SR B V) as [LN LD]. pose proof (low_den_pos q) as P.
  rewrite Qtrunc_low.
  assert (E := Z.quot_rem' (low_num q) (low_den q)).
  assert (R1 := abs_rem_le (low_num q) (low_den q)).
  assert (M := Z.rem_sign_mul (low_num q) (low_den q) ltac:(lia)).
  set (k := Z.quot (low_num q) (low_den q)) in *. set (r := Z.rem (low_num q) (low_den q)) in *.
  apply (ri_minus_fits t k f q); auto.
  - assert (Z.abs (k * low_den q) <= Z.abs (low_num q)); [|lia].
    destruct (Z.le_gt_cases 0 (low_num q)); nia.
  - replace (low_num q - k * low_den q) with r by lia. lia.
Qed.

Lemma unit_shift_ok : forall t f q z, signed_rep t -> raw_bounded (rmax t) f -> value f = Some q ->
  z = 1 \/ z = -1 -> (-(1) <= inject_Z z + q <= 1)%Q -> ok (p_arith (denote defaults) t Plus (IR z f)).
Proof.
  intros t f q z SR B V HZ [Q1 Q2]. destruct (bounded_low t f q SR B V) as [LN LD]. pose proof (low_den_pos q) as P.
  assert (PQ : (0 < inject_Z (low_den q))%Q) by (change 0%Q with (inject_Z 0); rewrite <- Zlt_Qlt; lia).
  pose proof (low_value q) as LV.
  assert (E : (inject_Z (z * low_den q + low_num q) == (inject_Z z + q) * inject_Z (low_den q))%Q).
  { clear -LV PQ. set (n := low_num q) in *. set (d := low_den q) in *. clearbody n d.
    rewrite <- LV, inject_Z_plus, inject_Z_mult. field. lra. }
  apply (ir_plus_fits t z f q); auto; [destruct HZ as [-> | ->]; lia|].
  assert (A : (inject_Z (z * low_den q + low_num q) <= inject_Z (low_den q))%Q) by (rewrite E; nra).
  assert (C : (inject_Z (- low_den q) <= inject_Z (z * low_den q + low_num q))%Q) by (rewrite E, inject_Z_opp; nra).
  rewrite <- Zle_Qle in A, C. lia.
Qed.

Lemma result_bounded : forall t op a r q, signed_rep t -> wf_args t a -> p_arith (denote defaults) t op a = Ok r ->
  value r = Some q -> (-(1) <= q <= 1)%Q -> raw_bounded (rmax t) r.
Proof.
  intros t op a r q SR WA H V Q. pose proof SR as [W S].
  pose proof (denote_canonical defaults t op a r W WA eq_refl H) as C.
  pose proof (arith_wf _ _ _ _ _ W WA H) as [_ WD]. apply range_iff in WD; auto.
  destruct (canon_low r q C V) as [_ E]. rewrite <- (Z.mul_1_l (rmax t)). apply (canon_bounded r q (rmax t) 1); auto; lia.
Qed.

Theorem make_iff : forall t w f, signed_rep t -> in_rep t w = true -> wf_raw t f ->
  (ok (mixed_make (denote defaults) t t w f) <->
   exists q, value f = Some q /\ no_minimum t f /\ in_rep t (w + Qtrunc q) = true).
Proof.
  intros t w f SR IW WF. pose proof SR as [W S].
  unfold mixed_make, mixed_fix, fix_improper. cbn [whole fractional].
  pose proof (is_improper_iff t f SR WF) as II.
  split.
  - intros [m H]. inv_bind H.
    assert (NM : no_minimum t f) by (apply II; destruct (is_improper t f) as [b|u]; [now eexists|discriminate]).
    assert (BF : raw_bounded (rmax t) f) by (now apply no_min_bounded).
    match goal with E : bind (is_improper t f) _ = _ |- _ => rename E into HI end.
    rewrite (is_improper_total t f (rmax t) SR BF) in HI by lia. cbn [bind] in HI.
    destruct (Z.ltb_spec (Z.abs (num f)) (Z.abs (den f))) as [LT|GE]; cbn [negb] in HI.
    + assert (Dn : den f <> 0) by lia. rewrite (value_defined f Dn). eexists. split; [reflexivity|]. split; auto.
      rewrite Qtrunc_div by auto. rewrite <- (Z.quot_small_iff (num f) (den f)) in LT by auto. rewrite LT, Z.add_0_r. auto.
    + inv_bind HI. match goal with E : f_trunc t f = Ok _ |- _ => apply f_trunc_ok in E as [Dn ->]; auto end.
      destruct (f_trunc_total t f (rmax t) SR BF ltac:(lia) Dn) as [T1 T2].
      rewrite (value_defined f Dn). eexists. split; [reflexivity|]. split; auto. rewrite Qtrunc_div by auto.
      assert (Ik : in_rep t (Z.quot (num f) (den f)) = true) by (apply in_rep_signed_abs; auto).
      match goal with E : m_add t w _ = Ok _ |- _ => unfold m_add, cast in E; rewrite wrap_id in E by auto; now apply arith_signed in E end.
  - intros [q [V [NM IS]]].
    assert (BF : raw_bounded (rmax t) f) by (now apply no_min_bounded).
    assert (Dn : den f <> 0) by (intros E; rewrite value_undefined in V by auto; discriminate).
    assert (VD := value_defined f Dn). rewrite V in VD. injection VD as VD.
    destruct (f_trunc_total t f (rmax t) SR BF ltac:(lia) Dn) as [T1 T2].
    assert (TQ : Qtrunc q = Z.quot (num f) (den f)) by (rewrite VD; now apply Qtrunc_div).
    assert (Step : exists m1 q1, fix_improper (denote defaults) t t (mkMixed w f) = Ok m1 /\ wf_mixed t t m1 /\
      raw_bounded (rmax t) (fractional m1) /\ value (fractional m1) = Some q1 /\ (-(1) < q1 < 1)%Q).
    { unfold fix_improper. cbn [whole fractional]. rewrite (is_improper_total t f (rmax t) SR BF) by lia. cbn [bind].
      destruct (Z.ltb_spec (Z.abs (num f)) (Z.abs (den f))) as [LT|GE]; cbn [negb].
      - eexists _, _. split; [reflexivity|]. cbn [whole fractional]. rewrite V.
        split; [now split|]. split; auto. split; [reflexivity|]. rewrite VD. now apply proper_value.
      - rewrite T1. cbn [bind]. rewrite <- TQ in *. set (k := Qtrunc q) in *.
        assert (Ik : in_rep t k = true) by (apply in_rep_signed_abs; auto).
        unfold cast. rewrite wrap_id by auto. unfold m_add. rewrite arith_in by auto. cbn [bind].
        rewrite f_assign_fits; auto; [|split; auto]. cbn [operand_args].
        assert (WA : wf_args t (RI f k)) by now split.
        destruct (minus_trunc_ok t f q SR BF V) as [r R]. fold k in R. rewrite R. cbn [bind].
        destruct (minus_int_exact defaults t f k r W S WF Ik R q V) as [WR [q1 [V1 Q1]]].
        pose proof (trunc_remainder q) as TR. fold k in TR.
        exists (mkMixed (w + k) r), q1. cbn [whole fractional]. split; [reflexivity|]. split; [now split|].
        split; [apply (result_bounded t Minus (RI f k) r q1); auto; rewrite Q1; lra|]. split; auto. rewrite Q1. exact TR. }
    destruct Step as [m1 [q1 [E [[M1 M2] [Bm [Vm Rm]]]]]]. unfold fix_improper in E. cbn [whole fractional] in E.
    rewrite E. cbn [bind]. unfold fix_signs. pose proof (rmax_big t W) as MX.
    destruct (one_in t SR) as [I1 I2]. apply range_iff in M1 as M1'; auto.
    destruct (is_negative (fractional m1)) eqn:NG; [|destruct (is_positive (fractional m1)) eqn:PS].
    + apply (is_negative_value _ _ Vm) in NG.
      assert (NP : is_positive (fractional m1) = false).
      { apply not_true_is_false. intros P. apply (is_positive_value _ _ Vm) in P. lra. }
      rewrite NP, !andb_false_r, andb_true_r. rewrite Z.gtb_ltb. destruct (Z.ltb_spec 0 (whole m1)).
      * unfold m_sub. rewrite arith_in; auto; [|apply range_iff; auto; lia]. cbn [bind].
        rewrite f_arith_self. destruct (unit_shift_ok t (fractional m1) q1 1 SR Bm Vm) as [r ->]; auto; [change (inject_Z 1) with 1%Q; lra|].
        cbn [bind]. now eexists.
      * now eexists.
    + apply (is_positive_value _ _ Vm) in PS. rewrite andb_false_r, andb_true_r. destruct (Z.ltb_spec (whole m1) 0).
      * unfold m_add, m_neg. rewrite !arith_in; auto; [|apply range_iff; auto; lia]. cbn [bind].
        rewrite f_arith_self. change (-(1)) with (-1).
        destruct (unit_shift_ok t (fractional m1) q1 (-1) SR Bm Vm) as [r E']; auto; [change (inject_Z (-1)) with (-(1))%Q; lra|].
        rewrite E'. cbn [bind]. now eexists.
      * now eexists.
    + rewrite !andb_false_r. now eexists.
Qed.

Theorem of_fraction_iff : forall t f, signed_rep t -> wf_raw t f ->
  (ok (mixed_of_fraction (denote defaults) t t t f) <-> value f <> None /\ no_minimum t f).
Proof.
  intros t f SR WF. pose proof SR as [W S]. unfold mixed_of_fraction. split.
  - intros [m H]. inv_bind H. apply f_trunc_ok in E as [Dn _]; auto.
    split; [rewrite (value_defined f Dn); discriminate|].
    rewrite f_arith_self, io_ri in E0.
    assert (O : ok (reduce t f ignore_signs_mode)) by (destruct (reduce t f ignore_signs_mode) as [x|]; [now eexists|discriminate]).
    destruct (proj1 (reduce_any_iff t f ignore_signs_mode SR WF) O) as [Z|N]; [contradiction|auto].
  - intros [V NM]. destruct (value f) as [q|] eqn:VQ; [clear V|contradiction].
    assert (BF : raw_bounded (rmax t) f) by (now apply no_min_bounded).
    assert (Dn : den f <> 0) by (intros E; rewrite value_undefined in VQ by auto; discriminate).
    assert (VD := value_defined f Dn). rewrite VQ in VD. injection VD as VD.
    destruct (f_trunc_total t f (rmax t) SR BF ltac:(lia) Dn) as [T1 T2].
    assert (TQ : Qtrunc q = Z.quot (num f) (den f)) by (rewrite VD; now apply Qtrunc_div).
    rewrite T1. cbn [bind]. rewrite <- TQ in *.
    assert (Ik : in_rep t (Qtrunc q) = true) by (apply in_rep_signed_abs; auto).
    unfold cast. rewrite !(wrap_id t (Qtrunc q)) by auto. rewrite f_arith_self.
    destruct (minus_trunc_ok t f q SR BF VQ) as [r ->]. cbn [bind]. now eexists.
Qed.

Theorem as_fraction_iff : forall t m q, signed_rep t -> wf_mixed t t m -> normal_form m -> no_minimum t (fractional m) ->
  mixed_value m = Some q ->
  (ok (mixed_as_fraction (denote defaults) t t m) <-> Z.abs (low_num q) <= rmax t).
Proof.
  intros t m q SR [IW WF] [p [V [Q [SP SN]]]] NM MV. pose proof SR as [W S].
  assert (BF : raw_bounded (rmax t) (fractional m)) by (now apply no_min_bounded).
  unfold mixed_value in MV. rewrite V in MV. cbn [sum_value] in MV. injection MV as <-.
  destruct (low_shift (whole m) p) as [_ ->].
  unfold mixed_as_fraction. rewrite common_self.
  assert (f_convert t t (fractional m) = fractional m) as -> by (apply conv_wide; auto; lia).
  unfold cast. rewrite wrap_id by auto. rewrite f_arith_self.
  destruct (bounded_low t _ p SR BF V) as [LN LD]. pose proof (low_den_pos p) as P.
  assert (SG : (0 < whole m -> 0 <= low_num p) /\ (whole m < 0 -> low_num p <= 0)).
  { split; intros H.
    - apply low_nonneg. auto.
    - apply SN in H. rewrite <- (Qred_correct p) in H. unfold low_num. unfold Qle in H. cbn in H. lia. }
  split.
  - intros [r R]. assert (WA : wf_args t (IR (whole m) (fractional m))) by now split.
    pose proof (denote_canonical defaults t Plus _ r W WA eq_refl R) as C.
    pose proof (denote_exact_opt defaults t Plus _ r W S WA ltac:(left; discriminate) R) as X.
    cbn [left_value right_value] in X. rewrite V in X. cbn [exact_opt exact] in X.
    destruct (value r) as [x|] eqn:VR; [|contradiction]. cbn [same_value] in X.
    destruct (canon_low r x C VR) as [EN _]. destruct (low_proper _ _ X) as [EX _].
    destruct (low_shift (whole m) p) as [_ ES]. rewrite ES in EX. rewrite <- EX, <- EN.
    rewrite io_ir in R. inv_bind R. match goal with E : p_arith safe _ _ _ = Ok ?v |- _ => rename v into u; rename E into EU end.
    assert (WU : wf_raw t u).
    { apply (arith_wf Safe t Plus (IR (whole m) a) u W); auto. split; auto.
      now apply (reduce_spec t (fractional m) ignore_signs_mode a W WF E). }
    destruct (reduce_spec t u normalize_signs_mode r W WU R) as [_ [RD B]].
    destruct (Z.eq_dec (den u) 0) as [Z0|Z0].
    + rewrite (reduce_undefined t u normalize_signs_mode W Z0) in R. injection R as <-. cbn [num]. pose proof (rmax_big t W). lia.
    + specialize (B Z0). pose proof (reduces_bound _ _ _ RD). lia.
  - intros L. apply (ir_plus_fits t (whole m) (fractional m) p); auto; nia.
Qed.

Lemma negate_frac : forall t f q, signed_rep t -> wf_raw t f -> no_minimum t f -> value f = Some q ->
  exists r p, f_negate (denote defaults) t f = Ok r /\ wf_raw t r /\ value r = Some p /\ (p == - q)%Q /\ no_minimum t r.
Proof.
  intros t f q SR WF NM V. pose proof SR as [W S].
  destruct (proj2 (negate_reduced_iff defaults t f SR WF eq_refl) (or_intror NM)) as [r R].
  exists r. pose proof (denote_negate defaults t f r W S WF R) as X. rewrite V in X. cbn [opp_opt] in X.
  destruct (value r) as [p|] eqn:VP; [|contradiction]. cbn [same_value] in X.
  exists p. pose proof (negate_wf defaults t f r W WF R) as WR.
  repeat split; auto; try apply WR.
  - pose proof (denote_negate_canonical defaults t f r W WF eq_refl R) as C.
    destruct (canon_low r p C VP) as [EN _]. destruct (low_proper _ _ X) as [EX _].
    assert (LO : low_num (- q) = - low_num q).
    { apply (low_of (- q) (- low_num q) (low_den q)); [apply low_den_pos|rewrite Z.gcd_opp_l; apply low_canonical|].
      rewrite inject_Z_opp. rewrite <- (low_value q) at 1. unfold Qdiv. ring. }
    assert (BF : raw_bounded (rmax t) f) by (now apply no_min_bounded).
    destruct (bounded_low t f q SR BF V). rewrite (rmin_rmax_signed t S). lia.
  - pose proof (denote_negate_canonical defaults t f r W WF eq_refl R) as C.
    destruct (canon_low r p C VP) as [_ EN]. pose proof (low_den_pos p). rewrite (rmin_rmax_signed t S). pose proof (rmax_big t W). lia.
Qed.

Theorem mixed_negate_iff : forall t m, signed_rep t -> wf_mixed t t m -> normal_form m ->
  (ok (mixed_negate (denote defaults) t t m) <-> whole m <> rmin t /\ no_minimum t (fractional m)).
Proof.
  intros t m SR [IW WF] [q [V [Q _]]]. pose proof SR as [W S]. unfold mixed_negate. split.
  - intros [x H]. inv_bind H. split; [apply (neg_iff t _ SR IW); eexists; eassumption|].
    destruct (proj1 (negate_reduced_iff defaults t _ SR WF eq_refl)) as [Z|N]; auto; [eexists; eassumption|].
    rewrite value_undefined in V by auto. discriminate.
  - intros [NW NM]. destruct (proj2 (neg_iff t _ SR IW) NW) as [w E]. rewrite E. cbn [bind].
    unfold m_neg in E. apply arith_signed in E as [-> Iw]; auto.
    destruct (negate_frac t _ q SR WF NM V) as [r [p [-> [WR [VP [EP NR]]]]]]. cbn [bind].
    apply make_iff; auto. exists p. split; auto. split; auto.
    assert (Qtrunc p = 0) as ->; [|now rewrite Z.add_0_r].
    apply Qtrunc_unique. change (inject_Z 0) with 0%Q. destruct (Qlt_le_dec p 0); [right|left]; rewrite EP in *; lra.
Qed.

Theorem mixed_plus_iff : forall t l r a b, signed_rep t -> wf_mixed t t l -> wf_mixed t t r ->
  no_minimum t (fractional l) -> no_minimum t (fractional r) ->
  value (fractional l) = Some a -> value (fractional r) = Some b ->
  (ok (mixed_plus (denote defaults) t t t t l r) <->
   in_rep t (whole l + whole r) = true /\ enough (rmax t) Plus a b /\
   in_rep t (whole l + whole r + Qtrunc (a + b)) = true).
Proof.
  intros t l r a b SR [IL WL] [IR' WR] NL NR VA VB. pose proof SR as [W S].
  assert (BL : raw_bounded (rmax t) (fractional l)) by (now apply no_min_bounded).
  assert (BR : raw_bounded (rmax t) (fractional r)) by (now apply no_min_bounded).
  unfold mixed_plus. rewrite common_self.
  assert (f_convert t t (fractional l) = fractional l) as -> by (apply conv_wide; auto; lia).
  assert (f_convert t t (fractional r) = fractional r) as -> by (apply conv_wide; auto; lia).
  unfold cast. rewrite !wrap_id by auto. rewrite f_arith_self. unfold m_add. rewrite arith_iff by auto.
  destruct (in_rep t (whole l + whole r)) eqn:IS; cbn [bind]; [|split; [intros [? ?]; discriminate|intros [? _]; discriminate]].
  pose proof (io_iff t Plus _ _ a b SR BL BR VA VB) as IO.
  assert (WA : wf_args t (RR (fractional l) (fractional r))) by now split.
  assert (K : forall f, p_arith (denote defaults) t Plus (RR (fractional l) (fractional r)) = Ok f ->
    exists q, value f = Some q /\ (q == a + b)%Q /\ wf_raw t f /\ no_minimum t f).
  { intros f E. pose proof (denote_exact_opt defaults t Plus _ f W S WA ltac:(left; discriminate) E) as X.
    cbn [left_value right_value] in X. rewrite VA, VB in X. cbn [exact_opt exact] in X.
    destruct (value f) as [q|] eqn:VQ; [|contradiction]. cbn [same_value] in X. exists q. split; auto. split; auto.
    pose proof (arith_wf _ _ _ _ _ W WA E) as WF. split; auto.
    rewrite io_rr in E. inv_bind E.
    destruct (reduce_spec t _ ignore_signs_mode _ W WL E0) as [W0 _].
    destruct (reduce_spec t _ ignore_signs_mode _ W WR E1) as [W1 _].
    pose proof (arith_wf Safe t Plus (RR _ _) _ W (conj W0 W1) E2) as WU.
    destruct (reduce_spec t _ normalize_signs_mode f W WU E) as [_ [RD B]].
    pose proof (reduces_bound _ _ _ RD) as RB.
    apply no_min_bounded; auto.
    match goal with B : den ?u <> 0 -> _ |- _ => destruct (Z.eq_dec (den u) 0) as [Z0|Z0]; [|specialize (B Z0); lia] end.
    exfalso. destruct RD as [[_ ->]|[N _]]; [|contradiction]. rewrite value_undefined in VQ by auto. discriminate. }
  split.
  - intros [m H]. inv_bind H. split; auto. destruct (K _ eq_refl) as [q [VQ [EQ [WF NF]]]].
    split; [apply IO; now eexists|].
    destruct (proj1 (make_iff t _ _ SR IS WF) (ex_intro _ m H)) as [q' [V' [_ I']]]. rewrite VQ in V'. injection V' as <-.
    now rewrite (Qtrunc_proper _ _ EQ) in I'.
  - intros [_ [EN IT]]. apply IO in EN as [f E]. rewrite E. cbn [bind]. destruct (K _ E) as [q [VQ [EQ [WF NF]]]].
    apply make_iff; auto. exists q. split; auto. split; auto. now rewrite (Qtrunc_proper _ _ EQ).
Qed.

Theorem plus_whole_iff : forall t l z, signed_rep t -> wf_mixed t t l -> normal_form l -> in_rep t z = true ->
  (ok (mixed_plus_whole (denote defaults) t t t l z) <->
   in_rep t (whole l + z) = true /\ no_minimum t (fractional l)).
Proof.
  intros t l z SR [IL WL] [q [V [Q _]]] IZ. pose proof SR as [W S]. unfold mixed_plus_whole. rewrite common_self.
  unfold cast. rewrite !wrap_id by auto. unfold m_add. rewrite arith_iff by auto.
  destruct (in_rep t (whole l + z)) eqn:IS; cbn [bind]; [|split; [intros [? ?]; discriminate|intros [? _]; discriminate]].
  rewrite (make_iff t _ _ SR IS WL).
  assert (T0 : Qtrunc q = 0).
  { apply Qtrunc_unique. change (inject_Z 0) with 0%Q. destruct (Qlt_le_dec q 0); [right|left]; lra. }
  split.
  - intros [q' [_ [NM _]]]. auto.
  - intros [_ NM]. exists q. split; auto. split; auto. now rewrite T0, Z.add_0_r.
Qed.

Lemma trunc_in : forall t v k, wf_rep t -> f_trunc t v = Ok k -> in_rep t k = true.
Proof.
  intros t v k W H. unfold f_trunc, m_div in H. destruct (_ =? 0); [discriminate|].
  now apply arith_result_in in H.
Qed.

(** Results of the default operators have no part equal to the least integer. *)
Lemma io_no_minimum : forall t op a r, signed_rep t -> wf_args t a -> p_arith (denote defaults) t op a = Ok r -> no_minimum t r.
Proof.
  intros t op a r SR WA H. pose proof SR as [W S].
  assert (K : exists u, wf_raw t u /\ reduce t u normalize_signs_mode = Ok r).
  { destruct a as [x y|x z|z y]; [rewrite io_rr in H|rewrite io_ri in H|rewrite io_ir in H]; inv_bind H.
    - destruct WA as [WL WR]. destruct (reduce_spec t _ ignore_signs_mode _ W WL E) as [W0 _].
      destruct (reduce_spec t _ ignore_signs_mode _ W WR E0) as [W1 _].
      exists a1. split; auto. exact (arith_wf Safe t op (RR _ _) _ W (conj W0 W1) E1).
    - destruct WA as [WL WR]. destruct (reduce_spec t _ ignore_signs_mode _ W WL E) as [W0 _].
      exists a0. split; auto. exact (arith_wf Safe t op (RI _ _) _ W (conj W0 WR) E0).
    - destruct WA as [WL WR]. destruct (reduce_spec t _ ignore_signs_mode _ W WR E) as [W0 _].
      exists a0. split; auto. exact (arith_wf Safe t op (IR _ _) _ W (conj WL W0) E0). }
  destruct K as [u [WU R]]. destruct (reduce_spec t u normalize_signs_mode r W WU R) as [WR [RD B]].
  apply no_min_bounded; auto. destruct (Z.eq_dec (den u) 0) as [Z0|Z0].
  - rewrite (reduce_undefined t u normalize_signs_mode W Z0) in R. injection R as <-. cbn. pose proof (rmax_big t W). lia.
  - specialize (B Z0). pose proof (reduces_bound _ _ _ RD). lia.
Qed.

Lemma make_no_minimum : forall t w f m, signed_rep t -> in_rep t w = true -> wf_raw t f ->
  mixed_make (denote defaults) t t w f = Ok m -> no_minimum t (fractional m).
Proof.
  intros t w f m SR IW WF H. pose proof SR as [W S].
  destruct (proj1 (make_iff t w f SR IW WF) (ex_intro _ m H)) as [q [V [NM _]]].
  assert (BF : raw_bounded (rmax t) f) by (now apply no_min_bounded).
  assert (Dn : den f <> 0) by (intros E; rewrite value_undefined in V by auto; discriminate).
  unfold mixed_make, mixed_fix in H. destruct (fix_improper (denote defaults) t t (mkMixed w f)) as [m1|] eqn:E1; [|discriminate].
  cbn [bind] in H.
  assert (N1 : no_minimum t (fractional m1) /\ wf_raw t (fractional m1)).
  { unfold fix_improper in E1. cbn [whole fractional] in E1. inv_bind E1. destruct a; [|injection E1 as <-; auto].
    inv_bind E1. injection E1 as <-. cbn [fractional].
    assert (Ik : in_rep t a = true) by (apply (trunc_in t f); auto).
    rewrite f_assign_fits in E3; auto; [|split; auto]. cbn [operand_args] in E3.
    assert (WA : wf_args t (RI f a)) by now split.
    split; [now apply (io_no_minimum t Minus (RI f a))|now apply (arith_wf defaults t Minus (RI f a))]. }
  destruct N1 as [N1 W1]. destruct (one_in t SR) as [I1 I2]. unfold fix_signs in H.
  destruct ((whole m1 >? 0) && is_negative (fractional m1)).
  - inv_bind H. injection H as <-. cbn [fractional]. rewrite f_arith_self in E0.
    now apply (io_no_minimum t Plus (IR 1 (fractional m1))).
  - destruct ((whole m1 <? 0) && is_positive (fractional m1)); [|now injection H as <-].
    inv_bind H. injection H as <-. cbn [fractional]. rewrite f_arith_self in E2.
    apply (io_no_minimum t Plus (IR a0 (fractional m1))); auto. split; auto.
    unfold m_neg in E0. apply arith_signed in E0 as [-> I]; auto.
Qed.

Lemma typed_wf : forall t e, signed_rep t -> typed t e -> wf_mexpr e /\ mtype e = (t, t).
Proof.
  intros t e SR. induction e; cbn [typed wf_mexpr mtype]; intros H.
  - destruct H as [-> [-> [I F]]]. repeat split; auto; try apply SR; try apply F. lia.
  - destruct H as [-> F]. auto.
  - auto.
  - auto.
  - destruct H as [A B]. destruct (IHe1 A) as [A1 ->], (IHe2 B) as [B1 ->]. cbn [fst snd]. rewrite common_self. auto.
  - destruct H as [A [-> F]]. destruct (IHe A) as [A1 ->]. cbn [fst snd]. rewrite common_self. auto.
  - destruct H as [A [-> F]]. destruct (IHe A) as [A1 ->]. cbn [fst snd]. rewrite common_self. auto.
  - destruct H as [A [-> F]]. destruct (IHe A) as [A1 ->]. cbn [fst snd]. rewrite common_self. auto.
  - destruct H as [A [-> F]]. destruct (IHe A) as [A1 ->]. cbn [fst snd]. rewrite common_self. auto.
Qed.

Lemma usable_iff : forall t f, signed_rep t -> wf_raw t f -> usable (rmax t) f <-> value f <> None /\ no_minimum t f.
Proof. intros t f SR WF. unfold usable. now rewrite (no_min_bounded t f SR WF). Qed.

(** The parts of a mixed number in normal form. *)
Lemma normal_parts : forall m q a, normal_form m -> same_value (mixed_value m) (Some q) -> value (fractional m) = Some a ->
  whole m = Qtrunc q /\ (a == frac q)%Q.
Proof.
  intros m q a N X V. pose proof (normal_whole m q N X) as E. split; auto.
  unfold mixed_value in X. rewrite V in X. cbn [sum_value same_value] in X. unfold frac. rewrite <- E. clear E. revert X. generalize (whole m). intros k X. lra.
Qed.

Lemma fits_iff : forall t z, signed_rep t -> in_rep t z = true <-> fits (rmax t) z.
Proof. exact range_iff. Qed.

Lemma plus_parts_iff : forall t l r p q, signed_rep t -> wf_mixed t t l -> wf_mixed t t r -> normal_form l -> normal_form r ->
  no_minimum t (fractional l) -> no_minimum t (fractional r) ->
  same_value (mixed_value l) (Some p) -> same_value (mixed_value r) (Some q) ->
  (ok (mixed_plus (denote defaults) t t t t l r) <-> sum_fits (rmax t) p q).
Proof.
  intros t l r p q SR WL WR NL NR ML MR XL XR.
  pose proof NL as [a [VA _]]. pose proof NR as [b [VB _]].
  destruct (normal_parts l p a NL XL VA) as [EL FA]. destruct (normal_parts r q b NR XR VB) as [ER FB].
  rewrite (mixed_plus_iff t l r a b SR WL WR ML MR VA VB). unfold sum_fits.
  rewrite !fits_iff, EL, ER by auto. rewrite (enough_proper (rmax t) Plus a (frac p) b (frac q) FA FB).
  assert (E : (a + b == frac p + frac q)%Q) by (rewrite FA, FB; reflexivity).
  rewrite (Qtrunc_proper _ _ E). tauto.
Qed.

Lemma plus_no_minimum : forall t l r m, signed_rep t -> wf_mixed t t l -> wf_mixed t t r ->
  mixed_plus (denote defaults) t t t t l r = Ok m -> no_minimum t (fractional m).
Proof.
  intros t l r m SR [IL WL] [IR' WR] H. pose proof SR as [W S]. unfold mixed_plus in H. rewrite common_self in H.
  assert (E1 : f_convert t t (fractional l) = fractional l) by (apply conv_wide; auto; lia).
  assert (E2 : f_convert t t (fractional r) = fractional r) by (apply conv_wide; auto; lia).
  rewrite E1, E2 in H. unfold cast in H. rewrite !wrap_id in H by auto. rewrite f_arith_self in H. inv_bind H.
  unfold m_add in E. apply arith_signed in E as [-> I]; auto.
  apply (make_no_minimum t _ a0 m SR I); auto. exact (arith_wf defaults t Plus (RR (fractional l) (fractional r)) a0 W (conj WL WR) E0).
Qed.

Lemma of_fraction_no_minimum : forall t f m, signed_rep t -> wf_raw t f ->
  mixed_of_fraction (denote defaults) t t t f = Ok m -> no_minimum t (fractional m).
Proof.
  intros t f m SR WF H. pose proof SR as [W S]. unfold mixed_of_fraction in H. inv_bind H. injection H as <-. cbn [fractional].
  pose proof (trunc_in t f a W E) as Ik. unfold cast in E0. rewrite !(wrap_id t a) in E0 by (rewrite ?wrap_id; auto).
  rewrite f_arith_self in E0. assert (WA : wf_args t (RI f a)) by now split.
  destruct (conv_wide t t a0) as [-> _]; auto; [lia|exact (arith_wf _ _ _ _ _ W WA E0)|].
  now apply (io_no_minimum t Minus (RI f a)).
Qed.

Theorem meval_iff : forall t e, signed_rep t -> typed t e ->
  (ok (meval (denote defaults) e) <-> mdefined (rmax t) e) /\
  (forall m, meval (denote defaults) e = Ok m -> no_minimum t (fractional m)).
Proof.
  intros t e SR. pose proof SR as [W S].
  assert (EX : forall e m, typed t e -> meval (denote defaults) e = Ok m ->
    wf_mixed t t m /\ normal_form m /\ exists q, mdenotes e = Some q /\ same_value (mixed_value m) (Some q)).
  { intros e' m T H. destruct (typed_wf t e' SR T) as [WE MT].
    destruct (meval_exact defaults e' m WE H) as [WM [N X]]. rewrite MT in WM. split; auto. split; auto.
    destruct (mdenotes e') as [q|] eqn:D; [eauto|].
    destruct N as [p [V _]]. unfold mixed_value in X. rewrite V in X. contradiction. }
  assert (PF : forall e u f m, typed t e -> wf_raw t f -> u = t -> meval (denote defaults) e = Ok m ->
    no_minimum t (fractional m) ->
    (ok (mixed_plus_fraction (denote defaults) t t t m f) <-> usable (rmax t) f /\
      forall a b, mdenotes e = Some a -> value f = Some b -> sum_fits (rmax t) a b) /\
    (forall r, mixed_plus_fraction (denote defaults) t t t m f = Ok r -> no_minimum t (fractional r))).
  { intros e' u f m T WF _ H NM. destruct (EX e' m T H) as [WM [N [q [D X]]]].
    unfold mixed_plus_fraction. rewrite (usable_iff t f SR WF), <- (of_fraction_iff t f SR WF).
    assert (TF : trunc_fits t f -> True) by auto.
    assert (OF : forall m', mixed_of_fraction (denote defaults) t t t f = Ok m' ->
      wf_mixed t t m' /\ normal_form m' /\ no_minimum t (fractional m') /\ exists b, value f = Some b /\ same_value (mixed_value m') (Some b)).
    { intros m' E. pose proof (meval_exact defaults (MOfFraction t f) m' (conj SR WF) E) as [A [B C]]. cbn [mtype fst snd mdenotes] in *.
      split; auto. split; auto. split; [now apply (of_fraction_no_minimum t f)|].
      destruct (value f) as [b|] eqn:VF; [eauto|]. destruct B as [p [V _]]. unfold mixed_value in C. rewrite V in C. contradiction. }
    destruct (mixed_of_fraction (denote defaults) t t t f) as [m'|u'] eqn:E; cbn [bind].
    - destruct (OF m' eq_refl) as [WM' [N' [NM' [b [VF XB]]]]]. split.
      + rewrite (plus_parts_iff t m m' q b SR WM WM' N N' NM NM' X XB). rewrite D, VF. split.
        * intros K. split; [now eexists|]. intros a b' Ea Eb. now injection Ea as <-; injection Eb as <-.
        * intros [_ K]. auto.
      + intros r R. now apply (plus_no_minimum t m m' r).
    - split; [|discriminate]. split; [intros [? ?]; discriminate|intros [[? ?] _]; discriminate]. }
  assert (PW : forall e z m, typed t e -> in_rep t z = true -> meval (denote defaults) e = Ok m ->
    no_minimum t (fractional m) ->
    (ok (mixed_plus_whole (denote defaults) t t t m z) <-> forall a, mdenotes e = Some a -> fits (rmax t) (Qtrunc a + z)) /\
    (forall r, mixed_plus_whole (denote defaults) t t t m z = Ok r -> no_minimum t (fractional r))).
  { intros e' z m T IZ H NM. destruct (EX e' m T H) as [WM [N [q [D X]]]]. split.
    - rewrite (plus_whole_iff t m z SR WM N IZ), fits_iff, (normal_whole m q N X) by auto. rewrite D. split.
      + intros [K _] a Ea. now injection Ea as <-.
      + auto.
    - intros r R. unfold mixed_plus_whole in R. rewrite common_self in R. destruct WM as [IW WF].
      unfold cast in R. rewrite !wrap_id in R by auto. inv_bind R. unfold m_add in E. apply arith_signed in E as [-> I]; auto.
      now apply (make_no_minimum t _ (fractional m) r SR I). }
  induction e as [tw tf w f|u f|e IH|e IH|l IHl r IHr|e IH u f|u f e IH|e IH u z|u z e IH]; cbn [typed meval mdefined]; intros T.
  - destruct T as [-> [-> [IW WF]]]. split; [|intros m H; now apply (make_no_minimum t w f)].
    rewrite (make_iff t w f SR IW WF), (usable_iff t f SR WF). split.
    + intros [q [V [NM I]]]. rewrite V. split; [split; auto; discriminate|]. intros p E. injection E as <-. now apply fits_iff.
    + intros [[V NM] K]. destruct (value f) as [q|]; [|contradiction]. exists q. split; auto. split; auto. apply fits_iff; auto.
  - destruct T as [-> WF]. split; [|intros m H; now apply (of_fraction_no_minimum t f)].
    rewrite (of_fraction_iff t f SR WF), (usable_iff t f SR WF). tauto.
  - destruct (IH T) as [IO NM]. unfold mixed_posate. split; [rewrite bind_ok; auto|]. intros m H. inv_bind H. injection H as <-. auto.
  - destruct (IH T) as [IO NM]. destruct (typed_wf t e SR T) as [_ MT]. rewrite MT. cbn [fst snd].
    destruct (meval (denote defaults) e) as [m|u] eqn:E; cbn [bind].
    + destruct (EX e m T E) as [WM [N [q [D X]]]]. specialize (NM m eq_refl). split.
      * rewrite (mixed_negate_iff t m SR WM N), (normal_whole m q N X), D, (rmin_rmax_signed t S). split.
        -- intros [K _]. split; [apply IO; now eexists|]. intros a Ea. now injection Ea as <-.
        -- intros [_ K]. auto.
      * intros r R. unfold mixed_negate in R. inv_bind R. destruct WM as [IW WF].
        unfold m_neg in E0. apply arith_signed in E0 as [-> I]; auto.
        apply (make_no_minimum t _ a0 r SR I); auto. now apply (negate_wf defaults t (fractional m)).
    + split; [|discriminate]. split; [intros [? ?]; discriminate|]. intros [K _]. apply IO in K as [? ?]. discriminate.
  - destruct T as [TL TR]. destruct (IHl TL) as [IOl NMl], (IHr TR) as [IOr NMr].
    destruct (typed_wf t l SR TL) as [_ ->], (typed_wf t r SR TR) as [_ ->]. cbn [fst snd].
    destruct (meval (denote defaults) l) as [x|u] eqn:E; cbn [bind].
    2:{ split; [|discriminate]. split; [intros [? ?]; discriminate|]. intros [K _]. apply IOl in K as [? ?]. discriminate. }
    destruct (meval (denote defaults) r) as [y|u] eqn:E0; cbn [bind].
    2:{ split; [|discriminate]. split; [intros [? ?]; discriminate|]. intros [_ [K _]]. apply IOr in K as [? ?]. discriminate. }
    destruct (EX l x TL E) as [WX [NX [p [DP XP]]]]. destruct (EX r y TR E0) as [WY [NY [q [DQ XQ]]]]. split.
    + rewrite (plus_parts_iff t x y p q SR WX WY NX NY (NMl x eq_refl) (NMr y eq_refl) XP XQ), DP, DQ. split.
      * intros K. split; [apply IOl; now eexists|]. split; [apply IOr; now eexists|].
        intros a b Ea Eb. now injection Ea as <-; injection Eb as <-.
      * intros [_ [_ K]]. auto.
    + intros m R. now apply (plus_no_minimum t x y m).
  - destruct T as [T [-> WF]]. destruct (IH T) as [IO NM]. destruct (typed_wf t e SR T) as [_ ->]. cbn [fst snd].
    destruct (meval (denote defaults) e) as [m|u] eqn:E; cbn [bind].
    + destruct (PF e t f m T WF eq_refl E (NM m eq_refl)) as [A B]. split; auto. rewrite A. split; [|tauto].
      intros K. split; auto. apply IO. now eexists.
    + split; [|discriminate]. split; [intros [? ?]; discriminate|]. intros [K _]. apply IO in K as [? ?]. discriminate.
  - destruct T as [T [-> WF]]. destruct (IH T) as [IO NM]. destruct (typed_wf t e SR T) as [_ ->]. cbn [fst snd].
    destruct (meval (denote defaults) e) as [m|u] eqn:E; cbn [bind].
    + destruct (PF e t f m T WF eq_refl E (NM m eq_refl)) as [A B]. unfold fraction_plus_mixed. split; auto. rewrite A. split; [|tauto].
      intros K. split; auto. apply IO. now eexists.
    + split; [|discriminate]. split; [intros [? ?]; discriminate|]. intros [K _]. apply IO in K as [? ?]. discriminate.
  - destruct T as [T [-> IZ]]. destruct (IH T) as [IO NM]. destruct (typed_wf t e SR T) as [_ ->]. cbn [fst snd].
    destruct (meval (denote defaults) e) as [m|u] eqn:E; cbn [bind].
    + destruct (PW e z m T IZ E (NM m eq_refl)) as [A B]. split; auto. rewrite A. split; [|tauto].
      intros K. split; auto. apply IO. now eexists.
    + split; [|discriminate]. split; [intros [? ?]; discriminate|]. intros [K _]. apply IO in K as [? ?]. discriminate.
  - destruct T as [T [-> IZ]]. destruct (IH T) as [IO NM]. destruct (typed_wf t e SR T) as [_ ->]. cbn [fst snd].
    destruct (meval (denote defaults) e) as [m|u] eqn:E; cbn [bind].
    + destruct (PW e z m T IZ E (NM m eq_refl)) as [A B]. unfold whole_plus_mixed. split; auto. rewrite A. split; [|tauto].
      intros K. split; auto. apply IO. now eexists.
    + split; [|discriminate]. split; [intros [? ?]; discriminate|]. intros [K _]. apply IO in K as [? ?]. discriminate.
Qed.
