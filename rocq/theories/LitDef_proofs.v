(** C90: when converting a literal is defined. *)

From Coq Require Import ZArith QArith Qpower List Bool Lia Lqa.
From Verif Require Import Machine Raw Ops Spec Fraction Fmath Parse Parse_spec Mixed_spec Defined_spec LitDef_spec.
From Verif Require Import Machine_proofs Value_proofs Ops_proofs Total_proofs Algebra_proofs Fraction_proofs Fmath2_proofs
  Parse_proofs Parse2_proofs Defined_proofs Defined2_proofs Mixed3_proofs.
Import ListNotations.
Open Scope Z_scope.

Lemma low_shift : forall w q, low_den (inject_Z w + q) = low_den q /\
  low_num (inject_Z w + q) = w * low_den q + low_num q.
Proof.
  intros w q. pose proof (low_den_pos q) as P.
  destruct (low_of (inject_Z w + q) (w * low_den q + low_num q) (low_den q)); auto.
  - rewrite Z.gcd_comm, Z.add_comm, Z.gcd_add_mult_diag_r, Z.gcd_comm. apply low_canonical.
  - rewrite <- (low_value q) at 1. rewrite inject_Z_plus, inject_Z_mult. field.
    intros E. unfold Qeq in E; cbn in E. lia.
Qed.

Lemma low_nonneg : forall q, (0 <= q)%Q -> 0 <= low_num q.
Proof.
  intros q H. rewrite <- (Qred_correct q) in H. unfold low_num. unfold Qle in H. cbn in H. lia.
Qed.

Lemma low_den_div : forall n d, 0 < d -> low_den (inject_Z n / inject_Z d) <= d.
Proof.
  intros n d H. pose proof (low_value (inject_Z n / inject_Z d)) as V. set (q := (inject_Z n / inject_Z d)%Q) in *.
  pose proof (low_den_pos q) as P.
  assert (E : low_num q * d = n * low_den q).
  { unfold q in V at 3. rewrite (qdiv_eq (low_num q) (low_den q) n d) in V by lia. lia. }
  apply Z.divide_pos_le; auto.
  apply (Z.gauss _ (low_num q)); [|rewrite Z.gcd_comm; apply low_canonical]. exists n. lia.
Qed.

Lemma mantissa_iff : forall t w n d q, signed_rep t -> in_rep t w = true -> 0 <= w -> 0 <= n <= rmax t -> 0 < d <= rmax t ->
  (q == inject_Z w + inject_Z n / inject_Z d)%Q ->
  (ok (p_arith (denote defaults) t Plus (IR w (mkRaw n d))) <-> low_num q <= rmax t).
Proof.
  intros t w n d q SR IW W0 N D EQ. pose proof SR as [W S]. apply low_proper in EQ as [-> _].
  set (b := (inject_Z n / inject_Z d)%Q).
  assert (B0 : (0 <= b)%Q).
  { unfold b. apply Qle_shift_div_l; [change 0%Q with (inject_Z 0); rewrite <- Zlt_Qlt; lia|].
    rewrite Qmult_0_l. change 0%Q with (inject_Z 0). rewrite <- Zle_Qle. lia. }
  pose proof (io_ir_iff t Plus (mkRaw n d) w b SR) as I.
  unfold ok at 1. rewrite I; auto; [|split; cbn; lia|cbn; lia|apply value_over; lia]. clear I.
  cbn [enough]. unfold common_fits, least_den, over. destruct (low_int w) as [-> ->].
  pose proof (low_den_pos b) as P. pose proof (low_den_div n d ltac:(lia)) as LD. fold b in LD.
  pose proof (low_nonneg b B0) as L0. destruct (low_shift w b) as [_ ->].
  rewrite Z.lcm_1_l_nonneg by lia. rewrite Z.div_1_r, Z.div_same by lia. rewrite Z.mul_1_r. nia.
Qed.

Lemma pow_iff : forall t b e, signed_rep t -> b = 2 \/ b = 10 -> -2147483647 <= e <= 2147483647 ->
  (ok (f_pow t b e) <-> b ^ Z.abs e <= rmax t) /\
  (b ^ Z.abs e <= rmax t -> f_pow t b e = Ok (if e >=? 0 then mkRaw (b ^ Z.abs e) 1 else mkRaw 1 (b ^ Z.abs e))).
Proof.
  intros t b e [W S] B E.
  assert (IB : in_rep t b = true) by (apply int_cast; auto; lia).
  pose proof (Z.pow_pos_nonneg b (Z.abs e) ltac:(lia) ltac:(lia)) as P. pose proof (rmin_nonpos t W) as RN.
  rewrite f_pow_eq by auto. split.
  - split.
    + intros [r H]. inv_bind H. apply arith_signed in E0 as [_ I]; auto. rewrite in_rep_iff in I. lia.
    + intros L. rewrite arith_in by (auto; rewrite in_rep_iff; lia). now eexists.
  - intros L. rewrite arith_in by (auto; rewrite in_rep_iff; lia). reflexivity.
Qed.

Lemma tail_iff : forall t w n d b e q, signed_rep t -> in_rep t w = true -> 0 <= w -> 0 <= n <= rmax t -> 0 < d <= rmax t ->
  b = 2 \/ b = 10 -> -2147483647 <= e <= 2147483647 -> (q == inject_Z w + inject_Z n / inject_Z d)%Q ->
  (ok (do sum <- p_arith (denote defaults) t Plus (IR w (mkRaw n d)); do scale <- f_pow t b e;
       p_arith (denote defaults) t Multiplies (RR sum scale)) <->
   b ^ Z.abs e <= rmax t /\
   if 0 <=? e then low_num q * b ^ Z.abs e <= rmax t
   else low_num q <= rmax t /\ low_den q * b ^ Z.abs e <= rmax t).
Proof.
  intros t w n d b e q SR IW W0 N D B E EQ. pose proof SR as [W S].
  pose proof (mantissa_iff t w n d q SR IW W0 N D EQ) as MI.
  destruct (pow_iff t b e SR B E) as [PI PE].
  pose proof (Z.pow_pos_nonneg b (Z.abs e) ltac:(lia) ltac:(lia)) as PP. set (P := b ^ Z.abs e) in *.
  assert (Q0 : 0 <= low_num q).
  { apply low_nonneg. rewrite EQ.
    assert (0 <= inject_Z n / inject_Z d)%Q.
    { apply Qle_shift_div_l; [change 0%Q with (inject_Z 0); rewrite <- Zlt_Qlt; lia|].
      rewrite Qmult_0_l. change 0%Q with (inject_Z 0). rewrite <- Zle_Qle. lia. }
    assert (0 <= inject_Z w)%Q by (change 0%Q with (inject_Z 0); rewrite <- Zle_Qle; lia). lra. }
  assert (LD : low_den q <= rmax t).
  { apply low_proper in EQ as [_ ->]. destruct (low_shift w (inject_Z n / inject_Z d)) as [-> _].
    pose proof (low_den_div n d ltac:(lia)). lia. }
  pose proof (low_den_pos q) as QP.
  assert (R : (exists x, p_arith (denote defaults) t Plus (IR w (mkRaw n d)) = Ok x) -> P <= rmax t ->
    (ok (do sum <- p_arith (denote defaults) t Plus (IR w (mkRaw n d)); do scale <- f_pow t b e;
       p_arith (denote defaults) t Multiplies (RR sum scale)) <->
     if 0 <=? e then low_num q * P <= rmax t else low_num q <= rmax t /\ low_den q * P <= rmax t)).
  { intros [sum ES] LP. pose proof (proj1 MI (ex_intro _ sum ES)) as LN. rewrite ES. cbn [bind]. rewrite (PE LP). cbn [bind].
    pose proof (rmin_nonpos t W) as RN.
    assert (WA : wf_args t (IR w (mkRaw n d))) by (split; [auto|split; cbn; rewrite in_rep_iff; lia]).
    pose proof (denote_canonical defaults t Plus _ sum W WA eq_refl ES) as CA.
    pose proof (denote_exact_opt defaults t Plus _ sum W S WA ltac:(left; discriminate) ES) as X.
    cbn [left_value right_value] in X. rewrite value_over in X by lia. cbn [exact_opt exact] in X.
    destruct (value sum) as [s|] eqn:VS; [|contradiction]. cbn [same_value] in X. rewrite <- EQ in X.
    destruct (canon_low sum s CA VS) as [SN SD]. destruct (low_proper s q X) as [LN' LD']. rewrite LN' in SN. rewrite LD' in SD.
    assert (SB : raw_bounded (rmax t) sum) by (split; lia).
    assert (CP : exists c, value (if e >=? 0 then mkRaw P 1 else mkRaw 1 P) = Some c /\
      (if 0 <=? e then low_num c = P /\ low_den c = 1 else low_num c = 1 /\ low_den c = P)).
    { rewrite Z.geb_leb. destruct (0 <=? e); eexists; (split; [apply value_over; lia|]); apply low_of; try lia; try reflexivity.
      - apply Z.gcd_1_r. - apply Z.gcd_1_l. }
    destruct CP as [c [VC LC]].
    unfold ok. rewrite (io_iff t Multiplies sum _ s c SR SB); auto.
    - cbn [enough]. rewrite LN', LD'. destruct (0 <=? e); destruct LC as [-> ->]; nia.
    - rewrite Z.geb_leb. pose proof (rmax_big t W). destruct (0 <=? e); split; cbn; lia. }
  split.
  - intros H. assert (ok (p_arith (denote defaults) t Plus (IR w (mkRaw n d)))) as O.
    { destruct H as [x H]. inv_bind H. now eexists. }
    assert (P <= rmax t) as LP.
    { apply PI. destruct H as [x H]. inv_bind H. inv_bind H. now eexists. }
    split; auto. now apply R.
  - intros [LP H]. apply R; auto. apply MI. destruct (0 <=? e); nia.
Qed.

Lemma exponent_iff : forall l sc, valid_literal l -> parts_of sc l ->
  (ok (do digits <- digit_sequence_to_int int32 (sc_exponent sc) 10;
       m_mul int32 (if sc_negative sc then -1 else 1) digits) <-> exponent_digits l <= 9).
Proof.
  intros l sc V P. pose proof V as [_ [_ [_ [_ VE]]]]. pose proof P as [_ [_ [_ PE]]]. unfold exponent_digits.
  assert (W32 : wf_rep int32) by (unfold wf_rep; cbn; lia).
  destruct (l_exponent l) as [e|].
  - destruct PE as [PE _], VE as [_ [_ VD]]. rewrite PE. split.
    + intros [x H]. inv_bind H. apply to_int_ok in E as [_ [_ L]]; auto; [|now left|now right].
      change (rmax int32) with 2147483647 in L.
      destruct (Z_le_gt_dec (num_digits (x_digits e)) 9) as [|G]; auto. exfalso.
      assert (10 ^ 10 <= 10 ^ num_digits (x_digits e)) by (apply Z.pow_le_mono_r; lia).
      change (10 ^ 10) with 10000000000 in *. lia.
    + intros L. pose proof (num_digits_nonneg (x_digits e)).
      assert (10 ^ num_digits (x_digits e) <= 10 ^ 9) by (apply Z.pow_le_mono_r; lia).
      change (10 ^ 9) with 1000000000 in *.
      rewrite (to_int_total int32 10 (x_digits e) 1000000000); [|auto|now left|now right|auto|cbn; lia].
      cbn [bind]. unfold m_mul.
      pose proof (seq_value_bounds 10 (x_digits e) ltac:(lia) (digit_seq_chars _ _ VD)).
      rewrite arith_in; [now eexists|auto|]. rewrite in_rep_iff.
      change (rmin int32) with (-2147483648). change (rmax int32) with 2147483647.
      destruct (sc_negative sc); lia.
  - destruct PE as [-> ->]. split; [lia|]. intros _. now eexists.
Qed.

Theorem literal_iff : forall t l, signed_rep t -> valid_literal l -> Z.of_nat (length (spell l)) <= 2147483647 ->
  (ok (string_to_fraction (denote defaults) t (spell l)) <-> literal_fits (rmax t) l).
Proof.
  intros t l SR V L. pose proof SR as [W S]. unfold string_to_fraction.
  rewrite scan_eq by (unfold small, sv_size; lia). cbn [bind].
  destruct (scan_complete l V) as [sc [E [P PR]]]. rewrite E. clear E.
  pose proof P as [PB [PW [PF _]]]. rewrite PB, PW, PF, PR, (base_cast t l W).
  pose proof V as [_ [VW [VF _]]].
  assert (LF : Z.of_nat (length (l_fraction l)) <= 2147483647).
  { unfold spell in L. rewrite !app_length in L. lia. }
  rewrite (count_digits_spec (l_base l)) by (auto; now apply empty_or_chars).
  pose proof (num_digits_nonneg (l_fraction l)) as NN. pose proof (num_digits_nonneg (l_whole l)) as NW.
  assert (NL : num_digits (l_fraction l) <= Z.of_nat (length (l_fraction l))).
  { unfold num_digits. generalize (l_fraction l). clear. induction l as [|c s IH]; cbn; [lia|].
    destruct (digit_value c); cbn [length]; lia. }
  destruct (int_cast t (num_digits (l_fraction l)) W ltac:(lia)) as [C1 C2]. rewrite C1.
  assert (WB : in_rep t (l_base l) = true) by (apply int_cast; auto; unfold l_base; destruct (is_hex l); lia).
  rewrite pow_fuel_enough by auto.
  assert (BB : 2 <= l_base l) by (unfold l_base; destruct (is_hex l); lia).
  assert (EB : (if l_base l =? 10 then 10 else 2) = (if is_hex l then 2 else 10)) by (unfold l_base; destruct (is_hex l); reflexivity).
  rewrite EB.
  pose proof (Z.pow_pos_nonneg (l_base l) (num_digits (l_fraction l)) ltac:(lia) NN) as PF1.
  pose proof (rmin_nonpos t W) as RN.
  pose proof (seq_value_bounds (l_base l) (l_whole l) BB (empty_or_chars _ _ VW)) as BW.
  pose proof (seq_value_bounds (l_base l) (l_fraction l) BB (empty_or_chars _ _ VF)) as BF.
  pose proof (exponent_iff l sc V P) as XI.
  unfold literal_fits.
  split.
  - intros [r H].
    destruct (digit_sequence_to_int t (l_whole l) (l_base l)) as [whole|] eqn:E1; [|discriminate]. cbn [bind] in H.
    destruct (digit_sequence_to_int t (l_fraction l) (l_base l)) as [fnum|] eqn:E2; [|discriminate]. cbn [bind] in H.
    apply to_int_ok in E1 as [-> [I1 L1]]; auto; [|apply l_base_ok].
    apply to_int_ok in E2 as [-> [I2 L2]]; auto; [|apply l_base_ok].
    rewrite arith_in in H by (auto; rewrite in_rep_iff; lia). cbn [bind] in H.
    destruct (digit_sequence_to_int int32 (sc_exponent sc) 10) as [ds|] eqn:E4; [|discriminate]. cbn [bind] in H.
    destruct (m_mul int32 (if sc_negative sc then -1 else 1) ds) as [x|] eqn:E5; [|discriminate]. cbn [bind] in H.
    destruct (scale_ok l sc x V P) as [-> XB]; [rewrite E4; exact E5|].
    cbn [bind] in XI. rewrite E5 in XI. pose proof (proj1 XI (ex_intro _ _ eq_refl)) as X9.
    split; auto. split; auto. split; auto.
    rewrite f_arith_self in H.
    assert (H' : ok (do sum <- p_arith (denote defaults) t Plus (IR (seq_value (l_base l) (l_whole l)) (mkRaw (seq_value (l_base l) (l_fraction l)) (l_base l ^ num_digits (l_fraction l))));
      do scale <- f_pow t (if is_hex l then 2 else 10) (l_scale l); p_arith (denote defaults) t Multiplies (RR sum scale))).
    { exists r. inv_bind H. inv_bind H. cbn [bind]. now rewrite f_arith_self in H. }
    apply (tail_iff t _ _ _ (if is_hex l then 2 else 10) (l_scale l) (mantissa l)) in H'; auto; try lia.
    + destruct (is_hex l); auto.
    + reflexivity.
  - intros [L1 [L2 [X9 H]]].
    rewrite (to_int_total t _ (l_whole l) (rmax t)) by (auto; try apply l_base_ok; lia). cbn [bind].
    rewrite (to_int_total t _ (l_fraction l) (rmax t)) by (auto; try apply l_base_ok; lia). cbn [bind].
    rewrite arith_in by (auto; rewrite in_rep_iff; lia). cbn [bind].
    apply XI in X9 as [x EX]. destruct (scale_ok l sc x V P EX) as [-> XB].
    destruct (digit_sequence_to_int int32 (sc_exponent sc) 10) as [ds|]; [|discriminate]. cbn [bind] in EX |- *.
    rewrite EX. cbn [bind]. rewrite f_arith_self.
    apply (tail_iff t (seq_value (l_base l) (l_whole l)) (seq_value (l_base l) (l_fraction l))
      (l_base l ^ num_digits (l_fraction l)) (if is_hex l then 2 else 10) (l_scale l) (mantissa l)) in H; auto; try lia.
    + destruct H as [r H]. exists r. inv_bind H. inv_bind H. cbn [bind]. now rewrite f_arith_self.
    + rewrite in_rep_iff. lia.
    + destruct (is_hex l); auto.
    + reflexivity.
Qed.

Lemma string_wf_canonical : forall t l r, wf_rep t -> rsigned t = true -> valid_literal l ->
  Z.of_nat (length (spell l)) <= 2147483647 ->
  string_to_fraction (denote defaults) t (spell l) = Ok r -> wf_raw t r /\ canonical r.
Proof.
  intros t l r W S V L H. unfold string_to_fraction in H.
  rewrite scan_eq in H by (unfold small, sv_size; lia). cbn [bind] in H.
  destruct (scan_complete l V) as [sc [E [P PR]]]. rewrite E in H. clear E.
  pose proof P as [PB [PW [PF _]]]. rewrite PB, PW, PF, PR, (base_cast t l W) in H.
  pose proof V as [_ [VW [VF _]]].
  inv_bind H. inv_bind H. inv_bind H. inv_bind H. inv_bind H. inv_bind H. inv_bind H.
  apply to_int_ok in E as [_ [I1 _]]; auto; [|apply l_base_ok].
  apply to_int_ok in E0 as [_ [I2 _]]; auto; [|apply l_base_ok].
  destruct (scale_ok l sc a3 V P) as [-> XB]; [rewrite E2; exact E3|].
  rewrite !f_arith_self in *.
  assert (LF : Z.of_nat (length (l_fraction l)) <= 2147483647).
  { unfold spell in L. rewrite !app_length in L. lia. }
  rewrite (count_digits_spec (l_base l)) in E1 by (auto; now apply empty_or_chars).
  pose proof (num_digits_nonneg (l_fraction l)) as NN.
  assert (NL : num_digits (l_fraction l) <= Z.of_nat (length (l_fraction l))).
  { unfold num_digits. generalize (l_fraction l). clear. induction l as [|c s IH]; cbn; [lia|].
    destruct (digit_value c); cbn [length]; lia. }
  destruct (int_cast t (num_digits (l_fraction l)) W ltac:(lia)) as [C1 C2]. rewrite C1 in E1.
  assert (WB : in_rep t (l_base l) = true) by (apply int_cast; auto; unfold l_base; destruct (is_hex l); lia).
  rewrite pow_fuel_enough in E1 by auto. apply arith_signed in E1 as [-> I3]; auto.
  assert (WA : wf_args t (IR a (mkRaw a0 (l_base l ^ num_digits (l_fraction l))))) by (split; [exact I1|split; [exact I2|exact I3]]).
  pose proof (arith_wf _ _ _ _ _ W WA E4) as W6.
  assert (IB : in_rep t (if l_base l =? 10 then 10 else 2) = true) by (apply int_cast; auto; destruct (l_base l =? 10); lia).
  assert (W7 : wf_raw t a5).
  { rewrite f_pow_eq in E5 by (auto; lia). inv_bind E5. apply arith_signed in E as [-> I]; auto.
    destruct (l_scale l >=? 0); inversion E5; subst; split; cbn [num den]; auto; now apply int_cast. }
  split; [exact (arith_wf _ _ _ _ _ W (conj W6 W7 : wf_args t (RR a4 a5)) H)|].
  apply (denote_canonical defaults t Multiplies (RR a4 a5) r W (conj W6 W7) eq_refl H).
Qed.

Lemma string_canonical : forall t l r, wf_rep t -> rsigned t = true -> valid_literal l ->
  Z.of_nat (length (spell l)) <= 2147483647 ->
  string_to_fraction (denote defaults) t (spell l) = Ok r -> canonical r.
Proof. intros t l r W S V L H. exact (proj2 (string_wf_canonical t l r W S V L H)). Qed.
