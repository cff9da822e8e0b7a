(** When rounding under the default policy is defined. *)

From Coq Require Import ZArith QArith Qround Qreduction List Bool Lia Lqa.
From Coq Require Qcanon.
From Verif Require Import Machine Raw Ops Spec Fraction Fmath Fmath_spec Tight_spec Mixed_spec Defined_spec Defined2_spec.
From Verif Require Import Machine_proofs Value_proofs Ops_proofs Algebra_proofs Cmp_proofs Total_proofs Fraction_proofs Fmath_proofs Tight_proofs Laws_proofs Literals_proofs Defined_proofs.
Open Scope Z_scope.

(** Comparisons with an integer. *)
Theorem io_cmp_ri_iff : forall t op l z a, signed_rep t -> raw_bounded (rmax t) l -> 0 < den l -> in_rep t z = true ->
  value l = Some a ->
  (exists v, p_cmp (denote defaults) t op (RI l z) = Ok v) <-> common_fits (rmax t) a (inject_Z z).
Proof.
  intros t op l z a SR [Ln Ld] P F VA. pose proof SR as [W S].
  assert (E : p_cmp (denote defaults) t op (RI l z) =
    do l' <- reduce t l ignore_signs_mode; p_cmp safe t op (RI l' z)) by (destruct op; reflexivity).
  rewrite E. destruct (reduce_low t l a) as [s1 [U1 [-> [A1 [A2 E1]]]]]; auto. rewrite (E1 P), !Z.mul_1_l. cbn [bind]. clear E.
  destruct (over_int_r a z) as [EL [EA EB]]. unfold common_fits. rewrite EL. rewrite EL in EA, EB. rewrite EA, EB.
  destruct op; cbn [p_cmp safe p_equal_to_ri p_not_equal_to_ri p_less_ri p_less_equal_ri p_greater_ri p_greater_equal_ri];
    unfold safe_not_equal_to_ri, safe_greater_ri, safe_greater_equal_ri, safe_equal_to_ri, safe_less_ri, safe_less_equal_ri,
      safe_less_ir, safe_less_equal_ir; cbn [num den]; unfold m_mul;
    fold (@ok bool); step_arith t SR; try lia; (split; [lia|intros _; eexists; reflexivity]).
Qed.
Theorem io_cmp_ir_iff : forall t op z l a, signed_rep t -> raw_bounded (rmax t) l -> 0 < den l -> in_rep t z = true ->
  value l = Some a ->
  (exists v, p_cmp (denote defaults) t op (IR z l) = Ok v) <-> common_fits (rmax t) (inject_Z z) a.
Proof.
  intros t op z l a SR [Ln Ld] P F VA. pose proof SR as [W S].
  assert (E : p_cmp (denote defaults) t op (IR z l) =
    do l' <- reduce t l ignore_signs_mode; p_cmp safe t op (IR z l')) by (destruct op; reflexivity).
  rewrite E. destruct (reduce_low t l a) as [s1 [U1 [-> [A1 [A2 E1]]]]]; auto. rewrite (E1 P), !Z.mul_1_l. cbn [bind]. clear E.
  destruct (over_int_l a z) as [EL [EA EB]]. unfold common_fits. rewrite EL. rewrite EL in EA, EB. rewrite EA, EB.
  destruct op; cbn [p_cmp safe p_equal_to_ir p_not_equal_to_ir p_less_ir p_less_equal_ir p_greater_ir p_greater_equal_ir];
    unfold safe_not_equal_to_ir, safe_not_equal_to_ri, safe_greater_ir, safe_greater_equal_ir, safe_equal_to_ir, safe_equal_to_ri, safe_less_ri, safe_less_equal_ri,
      safe_less_ir, safe_less_equal_ir; cbn [num den]; unfold m_mul;
    fold (@ok bool); step_arith t SR; try lia; (split; [lia|intros _; eexists; reflexivity]).
Qed.

(** Results of the default policy. *)
Lemma io_bounded : forall t op l r x, signed_rep t ->
  wf_args t (RI l r) -> p_arith (denote defaults) t op (RI l r) = Ok x -> raw_bounded (rmax t) x.
Proof.
  intros t op l r x SR WA H. pose proof SR as [W S].
  pose proof H as H0. rewrite io_ri in H.
  destruct (reduce t l ignore_signs_mode) as [l'|] eqn:R; [|discriminate]. cbn [bind] in H.
  destruct (p_arith safe t op (RI l' r)) as [w|] eqn:E; [|discriminate]. cbn [bind] in H.
  assert (WL : wf_raw t l') by (destruct (reduce_spec _ _ _ _ W (proj1 WA) R) as [K _]; exact K).
  assert (WW : wf_raw t w) by exact (proj1 (denote_wf Safe) t op (RI l' r) w W (conj WL (proj2 WA)) E).
  destruct (reduce_spec _ _ _ _ W WW H) as [_ [RT _]].
  pose proof (reduces_bound _ _ _ RT) as [Bn Bd].
  assert (O : ok (reduce t w normalize_signs_mode)) by (now exists x).
  apply reduce_iff in O; auto. destruct O as [O|[O1 O2]]; [|split; lia].
  rewrite (reduce_undefined t w normalize_signs_mode) in H by auto. injection H as <-.
  pose proof (rmax_big t W). split; cbn [num den]; lia.
Qed.

Lemma low_of : forall a n d, 0 < d -> Z.gcd n d = 1 -> (a == inject_Z n / inject_Z d)%Q -> low_num a = n /\ low_den a = d.
Proof.
  intros a n d P G E.
  assert (EQ : mkRaw (low_num a) (low_den a) = mkRaw n d).
  { apply canonical_unique.
    - right. split; [apply low_den_pos|apply low_canonical].
    - right. now split.
    - rewrite !value_defined by (cbn [den]; pose proof (low_den_pos a); lia). cbn [num den same_value]. now rewrite low_value. }
  now injection EQ.
Qed.

Lemma low_sub_int : forall a k, low_num (a - inject_Z k) = low_num a - k * low_den a /\ low_den (a - inject_Z k) = low_den a.
Proof.
  intros a k. pose proof (low_den_pos a) as P. apply low_of; auto.
  - replace (low_num a - k * low_den a) with (low_num a + (- k) * low_den a) by ring.
    rewrite Z.gcd_comm, Z.gcd_add_mult_diag_r, Z.gcd_comm. apply low_canonical.
  - rewrite <- (low_value a) at 1. unfold Z.sub. rewrite inject_Z_plus, inject_Z_opp, inject_Z_mult.
    field. intros E. unfold Qeq in E. cbn [Qnum Qden inject_Z] in E. lia.
Qed.

Lemma floor_low : forall k a, is_floor k a <-> k * low_den a <= low_num a < (k + 1) * low_den a.
Proof.
  intros k a. pose proof (low_den_pos a) as P. unfold is_floor.
  rewrite <- (low_value a) at 1 2. rewrite Qle_int_div, Qdiv_lt_int by lia. nia.
Qed.
Lemma tiny_low : forall a, tiny_negative a <-> - low_den a < low_num a < 0.
Proof.
  intros a. pose proof (low_den_pos a) as P. unfold tiny_negative.
  rewrite <- (low_value a) at 1 2. change 0%Q with (inject_Z 0). rewrite Qlt_int_div, Qdiv_lt_int by lia. nia.
Qed.
Lemma Qfloor_is : forall a, is_floor (Qfloor a) a.
Proof. intros a. split; [apply Qfloor_le|apply Qlt_floor]. Qed.
Lemma is_floor_unique : forall k k' a, is_floor k a -> is_floor k' a -> k = k'.
Proof. intros k k' a. rewrite !floor_low. pose proof (low_den_pos a). nia. Qed.

Lemma lcm2 : forall d, 0 < d -> 0 < Z.lcm d 2 /\ exists c, Z.lcm d 2 = c * d /\ 1 <= c <= 2 /\ exists e, Z.lcm d 2 = e * 2.
Proof.
  intros d P.
  assert (LP : 0 < Z.lcm d 2).
  { pose proof (Z.lcm_nonneg d 2). assert (Z.lcm d 2 <> 0); [|lia]. intros E. apply Z.lcm_eq_0 in E. lia. }
  split; auto. destruct (Z.divide_lcm_l d 2) as [c C]. exists c. split; auto. split; [|apply Z.divide_lcm_r].
  split; [nia|]. assert (V : (Z.lcm d 2 | d * 2)) by (apply Z.lcm_least; [exists 2; ring|exists d; ring]).
  apply Z.divide_pos_le in V; nia.
Qed.

Lemma half_fits : forall M a, 0 < M -> - low_den a <= low_num a <= low_den a ->
  common_fits M a (1 # 2) <-> Z.lcm (low_den a) 2 <= M.
Proof.
  intros M a MP R. pose proof (low_den_pos a) as P. unfold common_fits, least_den, over.
  change (low_den (1 # 2)) with 2. change (low_num (1 # 2)) with 1.
  destruct (lcm2 (low_den a) P) as [LP [c [C [CB [e E]]]]].
  assert (Q1 : Z.lcm (low_den a) 2 / low_den a = c) by (rewrite C; apply Z.div_mul; lia).
  assert (Q2 : Z.lcm (low_den a) 2 / 2 = e) by (rewrite E; apply Z.div_mul; lia).
  rewrite Q1, Q2. split; [tauto|]. intros L. split; auto. split; nia.
Qed.

Theorem round_iff : forall t v a, signed_rep t -> raw_bounded (rmax t) v -> 0 < den v -> value v = Some a ->
  (exists k, f_round (denote defaults) t v = Ok k) <-> round_fits (rmax t) a.
Proof.
  intros t v a SR BV P VA. pose proof SR as [W S]. assert (WV := bounded_wf t v SR BV).
  pose proof (rmax_big t W) as Mx.
  assert (TD : trunc_defined t v).
  { unfold trunc_defined. split; [lia|]. intros [_ [_ E]]. lia. }
  destruct (proj2 (f_floor_defined t v W WV) TD) as [f F].
  assert (Ff := f_floor_in t v f W WV F).
  destruct (f_floor_spec t v f W WV F) as [q [VQ [NT T]]]. rewrite VA in VQ. injection VQ as <-.
  destruct (reduce_low t v a SR (proj1 BV) (proj2 BV) VA) as [_ [_ [_ [Bn [Bd _]]]]].
  pose proof (low_den_pos a) as Pa.
  assert (FL : f * low_den a <= low_num a < (f + 1) * low_den a \/ f = 0 /\ - low_den a < low_num a < 0).
  { destruct (tiny_negative_dec a) as [X|X]; [right; split; auto; now apply tiny_low|left; apply floor_low; auto]. }
  pose proof (Qfloor_is a) as QF. apply floor_low in QF.
  unfold f_round. rewrite F. cbn [bind]. rewrite f_arith_self.
  pose proof (io_ri_iff t Minus v f a SR BV P Ff VA) as MI.
  destruct (over_int_r a f) as [EL [EA EB]].
  assert (EN : enough (rmax t) Minus a (inject_Z f) <-> - rmax t - 1 <= Qfloor a * low_den a).
  { cbn [enough]. unfold common_fits. rewrite EA, EB, EL.
    destruct FL as [FL|[F0 FL]].
    - assert (f = Qfloor a) by nia. subst f. nia.
    - assert (Qfloor a = -1) by nia. rewrite H, F0. lia. }
  rewrite EN in MI. unfold round_fits.
  destruct (p_arith (denote defaults) t Minus (RI v f)) as [x|u] eqn:X; cbn [bind].
  2:{ split; [intros [? ?]; discriminate|]. intros [_ K]. apply MI in K as [y Y]. discriminate. }
  assert (K : - rmax t - 1 <= Qfloor a * low_den a) by (apply MI; now exists x).
  assert (WA : wf_args t (RI v f)) by now split.
  pose proof (denote_exact_opt defaults t Minus (RI v f) x W S WA (or_intror (or_introl eq_refl)) X) as EX.
  cbn [left_value right_value] in EX. rewrite VA in EX. cbn [exact_opt exact] in EX.
  destruct (value x) as [b|] eqn:VB; [|contradiction]. cbn [same_value] in EX.
  assert (BX := io_bounded t Minus v f x SR WA X).
  destruct (low_sub_int a f) as [LN LD]. destruct (low_proper _ _ EX) as [LN' LD']. rewrite LN in LN'. rewrite LD in LD'.
  rewrite f_cmp_self.
  assert (BH : raw_bounded (rmax t) (mkRaw 1 2)) by (split; cbn [num den]; lia).
  pose proof (io_cmp_iff t Lt x (mkRaw 1 2) b (1 # 2) SR BX BH VB eq_refl) as CI.
  rewrite (half_fits (rmax t) b) in CI by (try lia; rewrite LN', LD'; destruct FL as [FL|[F0 FL]]; nia).
  rewrite LD' in CI.
  destruct (p_cmp (denote defaults) t Lt (RR x (mkRaw 1 2))) as [c|u] eqn:C; cbn [bind].
  2:{ split; [intros [? ?]; discriminate|]. intros [K' _]. apply CI in K' as [y Y]. discriminate. }
  assert (K2 : Z.lcm (low_den a) 2 <= rmax t) by (apply CI; now exists c).
  split; [tauto|]. intros _. destruct c; [eexists; reflexivity|].
  assert (OD : cmp_ok defaults Lt (RR x (mkRaw 1 2))) by (right; right; right; left; reflexivity).
  assert (WX := bounded_wf t x SR BX). assert (WH := bounded_wf t _ SR BH).
  pose proof (denote_cmp defaults t Lt (RR x (mkRaw 1 2)) false W S (conj WX WH) OD C) as CV.
  cbn [left_value right_value] in CV. rewrite VB in CV. change (value (mkRaw 1 2)) with (Some (1 # 2)) in CV.
  cbn [exact_cmp_opt exact_cmp] in CV.
  assert (HB : ((1 # 2) <= b)%Q).
  { destruct (Qle_bool (1 # 2) b) eqn:Q; [now apply Qle_bool_iff|]. cbn in CV. congruence. }
  assert (NB : low_den a <= 2 * (low_num a - f * low_den a)).
  { rewrite <- (low_value b) in HB. rewrite LN', LD' in HB. change (1 # 2)%Q with (inject_Z 1 / inject_Z 2)%Q in HB.
    apply qdiv_le in HB; [nia|lia|lia]. }
  assert (A : in_rep t (f + 1) = true).
  { apply range_iff; auto. apply range_iff in Ff; auto. destruct FL as [FL|[F0 FL]]; [|lia].
    assert (2 <= low_den a) by lia. nia. }
  unfold m_add. rewrite arith_iff by auto. rewrite A. eexists; reflexivity.
Qed.

(** Multiplication by an integer, whatever the sign of the denominator. *)
Lemma io_mul_ri_iff : forall t l z a, signed_rep t -> raw_bounded (rmax t) l -> in_rep t z = true -> value l = Some a ->
  (exists x, p_arith (denote defaults) t Multiplies (RI l z) = Ok x) <-> Z.abs (low_num a * z) <= rmax t.
Proof.
  intros t l z a SR [Ln Ld] F VA. pose proof SR as [W S]. rewrite io_ri.
  destruct (reduce_low t l a) as [s [U [-> [A1 [A2 E]]]]]; auto. cbn [bind].
  cbn [p_arith safe p_multiplies_ri]. unfold safe_multiplies_ri. cbn [num den]. unfold m_mul.
  pose proof (low_den_pos a) as Pa. 
  match goal with |- (exists x, ?e = Ok x) <-> ?G => change (ok e <-> G) end.
  replace (s * low_num a * z) with (s * (low_num a * z)) by ring.
  set (p := low_num a * z) in *. clearbody p.
  assert (SP : Z.abs (s * p) = Z.abs p) by (destruct U as [-> | ->]; lia).
  assert (SD : Z.abs (s * low_den a) = low_den a) by (destruct U as [-> | ->]; lia).
  assert (FD : in_rep t (s * low_den a) = true) by (apply range_iff; auto; lia).
  step_arith t SR; [|lia].
  rewrite reduce_iff; auto; [|split; cbn [num den]; auto].
  cbn [num den]. rewrite SP, SD. lia.
Qed.

Lemma quot_le_abs : forall t x, signed_rep t -> raw_bounded (rmax t) x -> 0 < den x ->
  (forall k, f_trunc t x = Ok k -> Z.abs k <= rmax t) /\
  (forall k, f_floor t x = Ok k -> Z.abs k <= rmax t) /\
  (forall k, f_ceil t x = Ok k -> Z.abs k <= rmax t).
Proof.
  intros t x SR BX P. pose proof SR as [W S]. assert (WX := bounded_wf t x SR BX). destruct BX as [Bn Bd].
  pose proof (rmax_big t W) as Mx.
  split; [|split]; intros k H.
  - destruct (f_trunc_ok t x k W WX H) as [_ ->]. pose proof (abs_quot_le (num x) (den x)). lia.
  - destruct (f_floor_spec t x k W WX H) as [q [VQ [T NT]]].
    destruct (tiny_negative_dec q) as [X|X]; [rewrite (T X); cbn; lia|].
    specialize (NT X). rewrite value_defined in VQ by lia. injection VQ as <-. destruct NT as [N1 N2].
    rewrite Qle_int_div in N1 by lia. rewrite Qdiv_lt_int in N2 by lia. nia.
  - destruct (f_ceil_spec t x k W WX H) as [q [VQ [T NT]]].
    destruct (tiny_negative_dec q) as [X|X]; [rewrite (T X); cbn; lia|].
    specialize (NT X). rewrite value_defined in VQ by lia. injection VQ as <-. destruct NT as [N1 N2].
    rewrite Qlt_int_div in N1 by lia. rewrite Qdiv_le_int in N2 by lia. nia.
Qed.

Theorem redenominate_iff : forall t v a d m, signed_rep t -> raw_bounded (rmax t) v -> in_rep t d = true -> value v = Some a ->
  (exists r, f_redenominate (denote defaults) t v d m = Ok r) <-> redenominate_fits (rmax t) m a d.
Proof.
  intros t v a d m SR BV Fd VA. pose proof SR as [W S]. assert (WV := bounded_wf t v SR BV).
  pose proof (rmax_big t W) as Mx.
  assert (G : forall z, in_rep t z = true -> forall x, p_arith (denote defaults) t Multiplies (RI v z) = Ok x ->
    raw_bounded (rmax t) x /\ 0 < den x /\ exists b, value x = Some b /\ (b == a * inject_Z z)%Q /\
      ok (f_trunc t x) /\ ok (f_floor t x) /\ ok (f_ceil t x)).
  { intros z Fz x X. assert (WA : wf_args t (RI v z)) by now split.
    assert (BX := io_bounded t Multiplies v z x SR WA X).
    pose proof (denote_exact_opt defaults t Multiplies (RI v z) x W S WA (or_intror (or_introl eq_refl)) X) as EX.
    cbn [left_value right_value] in EX. rewrite VA in EX. cbn [exact_opt exact] in EX.
    destruct (value x) as [b|] eqn:VB; [|contradiction]. cbn [same_value] in EX.
    assert (DX : 0 < den x).
    { destruct (denote_canonical defaults t Multiplies _ x W WA eq_refl X) as [E0|[D _]]; auto.
      rewrite value_undefined in VB by (apply E0 || (rewrite E0; reflexivity)). discriminate. }
    split; auto. split; auto. exists b. split; auto. split; auto.
    assert (TD : trunc_defined t x) by (split; [lia|intros [_ [_ E]]; lia]).
    assert (WX := bounded_wf t x SR BX).
    split; [now apply f_trunc_defined|split; [now apply f_floor_defined|now apply f_ceil_defined]]. }
  assert (MI := fun z Fz => io_mul_ri_iff t v z a SR BV Fz VA).
  unfold f_redenominate, redenominate_fits. destruct m.
  - unfold f_trunc_redenominate. rewrite f_arith_self. rewrite <- (MI d Fd).
    destruct (p_arith (denote defaults) t Multiplies (RI v d)) as [x|u] eqn:X; cbn [bind].
    + destruct (G d Fd x X) as [_ [_ [b [_ [_ [[k ->] _]]]]]]. cbn [bind]. split; [split; eauto|eauto].
    + split; [intros [? ?]; discriminate|intros [[? ?] _]; discriminate].
  - unfold f_ceil_redenominate. destruct (Z.geb_spec d 0) as [D|D].
    + rewrite f_arith_self. assert (N : d <> - rmax t - 1) by lia. rewrite <- (MI d Fd).
      destruct (p_arith (denote defaults) t Multiplies (RI v d)) as [x|u] eqn:X; cbn [bind].
      * destruct (G d Fd x X) as [_ [_ [b [_ [_ [_ [_ [k ->]]]]]]]]. cbn [bind]. split; [split; eauto|eauto].
      * split; [intros [? ?]; discriminate|intros [[? ?] _]; discriminate].
    + match goal with |- (exists x, ?e = Ok x) <-> ?G => change (ok e <-> G) end. unfold m_neg at 1.
      step_arith t SR; [|apply range_iff in Fd; auto; lia]. rewrite f_arith_self.
      assert (AB : Z.abs (low_num a * d) = Z.abs (low_num a * - d)) by (rewrite !Z.abs_mul; lia).
      rewrite AB. assert (Fd' : in_rep t (- d) = true) by (apply range_iff; auto; lia).
      rewrite <- (MI (- d) Fd').
      destruct (p_arith (denote defaults) t Multiplies (RI v (- d))) as [x|u] eqn:X; cbn [bind].
      * destruct (G (- d) Fd' x X) as [BX [DX [b [_ [_ [_ [_ [k Hk]]]]]]]].
        pose proof (proj2 (proj2 (quot_le_abs t x SR BX DX)) k Hk) as KB. rewrite Hk. cbn [bind].
        unfold m_neg. rewrite arith_iff by auto. rewrite (proj2 (range_iff t (- k) SR)) by lia. cbn [bind].
        split; [intros _; split; [eauto|lia]|intros _; eexists; reflexivity].
      * split; [intros [? ?]; discriminate|intros [[? ?] _]; discriminate].
  - unfold f_floor_redenominate. destruct (Z.geb_spec d 0) as [D|D].
    + rewrite f_arith_self. assert (N : d <> - rmax t - 1) by lia. rewrite <- (MI d Fd).
      destruct (p_arith (denote defaults) t Multiplies (RI v d)) as [x|u] eqn:X; cbn [bind].
      * destruct (G d Fd x X) as [_ [_ [b [_ [_ [_ [[k ->] _]]]]]]]. cbn [bind]. split; [split; eauto|eauto].
      * split; [intros [? ?]; discriminate|intros [[? ?] _]; discriminate].
    + match goal with |- (exists x, ?e = Ok x) <-> ?G => change (ok e <-> G) end. unfold m_neg at 1.
      step_arith t SR; [|apply range_iff in Fd; auto; lia]. rewrite f_arith_self.
      assert (AB : Z.abs (low_num a * d) = Z.abs (low_num a * - d)) by (rewrite !Z.abs_mul; lia).
      rewrite AB. assert (Fd' : in_rep t (- d) = true) by (apply range_iff; auto; lia).
      rewrite <- (MI (- d) Fd').
      destruct (p_arith (denote defaults) t Multiplies (RI v (- d))) as [x|u] eqn:X; cbn [bind].
      * destruct (G (- d) Fd' x X) as [BX [DX [b [_ [_ [_ [[k Hk] _]]]]]]].
        pose proof (proj1 (proj2 (quot_le_abs t x SR BX DX)) k Hk) as KB. rewrite Hk. cbn [bind].
        unfold m_neg. rewrite arith_iff by auto. rewrite (proj2 (range_iff t (- k) SR)) by lia. cbn [bind].
        split; [intros _; split; [eauto|lia]|intros _; eexists; reflexivity].
      * split; [intros [? ?]; discriminate|intros [[? ?] _]; discriminate].
  - unfold f_round_redenominate. rewrite f_arith_self. rewrite <- (MI d Fd).
    destruct (p_arith (denote defaults) t Multiplies (RI v d)) as [x|u] eqn:X; cbn [bind].
    + destruct (G d Fd x X) as [BX [DX [b [VB [EB _]]]]].
      pose proof (round_iff t x b SR BX DX VB) as RI'.
      assert (RF : round_fits (rmax t) b <-> round_fits (rmax t) (a * inject_Z d)).
      { unfold round_fits. destruct (low_proper _ _ EB) as [_ ->]. rewrite (Qfloor_comp _ _ EB). tauto. }
      rewrite RF in RI'.
      destruct (f_round (denote defaults) t x) as [k|u] eqn:K; cbn [bind].
      * split; [intros _; split; [eauto|apply RI'; eauto]|eauto].
      * split; [intros [? ?]; discriminate|]. intros [_ Q]. apply RI' in Q as [? ?]. discriminate.
    + split; [intros [? ?]; discriminate|intros [[? ?] _]; discriminate].
Qed.
