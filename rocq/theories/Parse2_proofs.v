(** Conversion of literals to fractions. *)

From Coq Require Import ZArith QArith Qpower List Bool Lia Lqa.
From Verif Require Import Machine Raw Ops Spec Fraction Fmath Parse Parse_spec.
From Verif Require Import Machine_proofs Value_proofs Ops_proofs Total_proofs Algebra_proofs Fraction_proofs Fmath2_proofs Parse_proofs.
Import ListNotations.
Open Scope Z_scope.

Lemma to_int_ok : forall t base s x, wf_rep t -> rsigned t = true -> base_ok base ->
  empty_or (digit_seq base) s -> digit_sequence_to_int t s base = Ok x ->
  x = seq_value base s /\ in_rep t x = true /\ base ^ num_digits s <= rmax t.
Proof.
  intros t base s x W S B E H. apply empty_or_chars in E.
  rewrite to_int_signed in H; auto; [|unfold base_ok in B; lia].
  destruct (Z.leb_spec (base ^ num_digits s) (rmax t)) as [L|L]; inversion H; subst.
  split; auto. split; auto. rewrite in_rep_iff.
  destruct (seq_value_bounds base s) as [B1 B2]; auto; [unfold base_ok in B; lia|].
  pose proof (rmin_nonpos t W). lia.
Qed.

Lemma base_cast : forall t l, wf_rep t -> cast t (l_base l) = l_base l.
Proof.
  intros t l W. apply int_cast; auto. unfold l_base. destruct (is_hex l); lia.
Qed.

Lemma l_base_ok : forall l, base_ok (l_base l).
Proof. intros l. unfold base_ok, l_base. destruct (is_hex l); auto. Qed.

(** The exponent the code computes. *)
Lemma scale_ok : forall l r x, valid_literal l -> parts_of r l ->
  (do digits <- digit_sequence_to_int int32 (sc_exponent r) 10;
   m_mul int32 (if sc_negative r then -1 else 1) digits) = Ok x ->
  x = l_scale l /\ Z.abs x < 1000000000.
Proof.
  intros l r x [_ [_ [_ [_ V]]]] [_ [_ [_ P]]] H. unfold l_scale.
  destruct (l_exponent l) as [e|].
  - destruct V as [_ [VS VD]], P as [PE N]. rewrite PE in H. inv_bind H.
    assert (W32 : wf_rep int32) by (unfold wf_rep; cbn; lia).
    apply to_int_ok in E as [-> [I L]]; auto; [|now left|now right].
    pose proof (seq_value_bounds 10 (x_digits e) ltac:(lia) (digit_seq_chars _ _ VD)) as [B1 B2].
    pose proof (num_digits_nonneg (x_digits e)) as NN.
    assert (N9 : num_digits (x_digits e) <= 9).
    { destruct (Z.le_gt_cases (num_digits (x_digits e)) 9); auto. exfalso.
      assert (10 ^ 10 <= 10 ^ num_digits (x_digits e)) by (apply Z.pow_le_mono_r; lia).
      change (rmax int32) with 2147483647 in L. change (10 ^ 10) with 10000000000 in *. lia. }
    assert (10 ^ num_digits (x_digits e) <= 10 ^ 9) by (apply Z.pow_le_mono_r; lia).
    change (10 ^ 9) with 1000000000 in *.
    unfold m_mul in H. apply arith_signed in H as [-> _]; auto.
    destruct VS as [S|[S|S]]; rewrite S in *; destruct (sc_negative r).
    + exfalso. destruct N as [N _]. specialize (N eq_refl). discriminate.
    + lia.
    + exfalso. destruct N as [N _]. specialize (N eq_refl). discriminate.
    + lia.
    + lia.
    + exfalso. destruct N as [_ N]. specialize (N eq_refl). discriminate.
  - destruct P as [P1 P2]. rewrite P1, P2 in H. cbn in H. inversion H; subst. split; [auto|lia].
Qed.

Lemma hex_scale_base : forall l, inject_Z (if l_base l =? 10 then 10 else 2) = (if is_hex l then 2 # 1 else 10 # 1)%Q.
Proof. intros l. unfold l_base. destruct (is_hex l); reflexivity. Qed.

Theorem string_to_fraction_exact : forall o t l r, wf_rep t -> rsigned t = true ->
  valid_literal l -> Z.of_nat (length (spell l)) <= 2147483647 ->
  string_to_fraction (denote o) t (spell l) = Ok r ->
  exists v, value r = Some v /\ (v == literal_value l)%Q.
Proof.
  intros o t l r W S V L H. unfold string_to_fraction in H.
  rewrite scan_eq in H by (unfold small, sv_size; lia). cbn [bind] in H.
  destruct (scan_complete l V) as [sc [E [P PR]]]. rewrite E in H. clear E.
  pose proof P as [PB [PW [PF _]]]. rewrite PB, PW, PF, PR, (base_cast t l W) in H.
  pose proof V as [_ [VW [VF _]]].
  assert (LF : Z.of_nat (length (l_fraction l)) <= 2147483647).
  { unfold spell in L. rewrite !app_length in L. lia. }
  rewrite (count_digits_spec (l_base l)) in H by (auto; now apply empty_or_chars).
  pose proof (num_digits_nonneg (l_fraction l)) as NN.
  assert (NL : num_digits (l_fraction l) <= Z.of_nat (length (l_fraction l))).
  { unfold num_digits. generalize (l_fraction l). clear. induction l as [|c s IH]; cbn; [lia|].
    destruct (digit_value c); cbn [length]; lia. }
  destruct (int_cast t (num_digits (l_fraction l)) W ltac:(lia)) as [C1 C2]. rewrite C1 in H.
  assert (WB : in_rep t (l_base l) = true) by (apply int_cast; auto; unfold l_base; destruct (is_hex l); lia).
  rewrite pow_fuel_enough in H by auto.
  destruct (digit_sequence_to_int t (l_whole l) (l_base l)) as [whole|] eqn:E1; [|discriminate]. cbn [bind] in H.
  destruct (digit_sequence_to_int t (l_fraction l) (l_base l)) as [fnum|] eqn:E2; [|discriminate]. cbn [bind] in H.
  destruct (arith t (l_base l ^ num_digits (l_fraction l))) as [fden|] eqn:E3; [|discriminate]. cbn [bind] in H.
  apply to_int_ok in E1 as [-> [I1 _]]; auto; [|apply l_base_ok].
  apply to_int_ok in E2 as [-> [I2 _]]; auto; [|apply l_base_ok].
  apply arith_signed in E3 as [-> I3]; auto.
  destruct (digit_sequence_to_int int32 (sc_exponent sc) 10) as [ds|] eqn:E4; [|discriminate]. cbn [bind] in H.
  destruct (m_mul int32 (if sc_negative sc then -1 else 1) ds) as [x|] eqn:E5; [|discriminate]. cbn [bind] in H.
  destruct (scale_ok l sc x V P) as [-> XB]; [rewrite E4; exact E5|].
  rewrite !f_arith_self in H.
  set (w := seq_value (l_base l) (l_whole l)) in *. set (n := seq_value (l_base l) (l_fraction l)) in *.
  set (d := l_base l ^ num_digits (l_fraction l)) in *.
  assert (DN : d <> 0).
  { unfold d. apply Z.pow_nonzero; [unfold l_base; destruct (is_hex l); lia|auto]. }
  destruct (p_arith (denote o) t Plus (IR w (mkRaw n d))) as [sum|] eqn:E6; [|discriminate]. cbn [bind] in H.
  assert (A : wf_args t (IR w (mkRaw n d))) by (split; [auto|split; auto]).
  pose proof (denote_exact_opt o t Plus _ sum W S A ltac:(left; discriminate) E6) as X6.
  pose proof (arith_wf _ _ _ _ _ W A E6) as W6.
  cbn [left_value right_value] in X6. rewrite value_over in X6 by auto. cbn [exact_opt exact] in X6.
  destruct (value sum) as [s|] eqn:VS; [|contradiction]. cbn [same_value] in X6.
  destruct (f_pow t (if l_base l =? 10 then 10 else 2) (l_scale l)) as [scale|] eqn:E7; [|discriminate]. cbn [bind] in H.
  assert (IB : in_rep t (if l_base l =? 10 then 10 else 2) = true) by (apply int_cast; auto; destruct (l_base l =? 10); lia).
  assert (W7 : wf_raw t scale).
  { rewrite f_pow_eq in E7 by (auto; lia). inv_bind E7. apply arith_signed in E as [-> I]; auto.
    destruct (l_scale l >=? 0); inversion E7; subst; split; cbn [num den]; auto; now apply int_cast. }
  destruct (f_pow_value t _ (l_scale l) _ W S IB ltac:(lia) E7) as [F _].
  destruct F as [sv [VSc XS]]; [right; destruct (l_base l =? 10); discriminate|].
  rewrite f_arith_self in H.
  assert (A2 : wf_args t (RR sum scale)) by (split; auto).
  pose proof (denote_exact_opt o t Multiplies _ r W S A2 ltac:(left; discriminate) H) as X8.
  cbn [left_value right_value] in X8. rewrite VS, VSc in X8. cbn [exact_opt exact] in X8.
  destruct (value r) as [v|]; [|contradiction]. cbn [same_value] in X8.
  exists v. split; auto. rewrite X8, X6, XS. rewrite hex_scale_base.
  unfold literal_value. fold w n d. reflexivity.
Qed.

Theorem string_to_fraction_rejects : forall o t s, small s ->
  ~ (exists l, valid_literal l /\ s = spell l) ->
  string_to_fraction (denote o) t s = Ok (mkRaw 0 0).
Proof.
  intros o t s SM N. unfold string_to_fraction. rewrite scan_eq by auto. cbn [bind].
  destruct (scan_fun s) as [r|] eqn:E; auto. exfalso. apply N.
  destruct (scan_sound s r E) as [l [V [Q _]]]. eauto.
Qed.

(** ** The spelling determines the literal's value *)

Theorem literal_unambiguous : forall l1 l2, valid_literal l1 -> valid_literal l2 ->
  spell l1 = spell l2 ->
  l_base l1 = l_base l2 /\ l_whole l1 = l_whole l2 /\ l_fraction l1 = l_fraction l2 /\ l_scale l1 = l_scale l2.
Proof.
  intros l1 l2 V1 V2 E.
  destruct (scan_complete l1 V1) as [r1 [E1 [P1 _]]]. destruct (scan_complete l2 V2) as [r2 [E2 [P2 _]]].
  rewrite E in E1. assert (r1 = r2) by congruence. subst r2.
  destruct P1 as [A1 [B1 [C1 D1]]], P2 as [A2 [B2 [C2 D2]]].
  split; [congruence|]. split; [congruence|]. split; [congruence|].
  unfold l_scale.
  destruct V1 as [_ [_ [_ [_ V1]]]], V2 as [_ [_ [_ [_ V2]]]].
  assert (NE : forall s, digit_seq 10 s -> s <> []) by (intros s H; destruct H; discriminate).
  destruct (l_exponent l1) as [e1|], (l_exponent l2) as [e2|].
  - destruct D1 as [D1 N1], D2 as [D2 N2]. rewrite <- D1, <- D2.
    destruct V1 as [_ [S1 _]], V2 as [_ [S2 _]].
    destruct (sc_negative r1).
    + rewrite (proj1 N1 eq_refl), (proj1 N2 eq_refl). reflexivity.
    + destruct S1 as [S1|[S1|S1]]; rewrite S1 in *; [| |destruct N1 as [_ N1]; specialize (N1 eq_refl); discriminate];
      (destruct S2 as [S2|[S2|S2]]; rewrite S2 in *; [| |destruct N2 as [_ N2]; specialize (N2 eq_refl); discriminate]); reflexivity.
  - destruct D1 as [D1 _], D2 as [_ D2]. exfalso. destruct V1 as [_ [_ V1]]. apply NE in V1. congruence.
  - destruct D2 as [D2 _], D1 as [_ D1]. exfalso. destruct V2 as [_ [_ V2]]. apply NE in V2. congruence.
  - reflexivity.
Qed.

Lemma literal_value_unambiguous : forall l1 l2, valid_literal l1 -> valid_literal l2 ->
  spell l1 = spell l2 -> literal_value l1 = literal_value l2.
Proof.
  intros l1 l2 V1 V2 E. destruct (literal_unambiguous l1 l2 V1 V2 E) as [H1 [H2 [H3 H4]]].
  unfold literal_value. rewrite H1, H2, H3, H4.
  assert (is_hex l1 = is_hex l2) as ->; [|reflexivity].
  unfold l_base in H1. destruct (is_hex l1), (is_hex l2); auto; discriminate.
Qed.

(** ** Literals short enough to convert without overflow *)

Definition natural (M : Z) (v : raw) : Prop := 0 <= num v <= M /\ 0 < den v <= M.

Lemma reduce_natural : forall t v m M, wf_rep t -> natural M v -> M <= rmax t ->
  exists r g, reduce t v m = Ok r /\ 0 < g /\ num v = g * num r /\ den v = g * den r /\ natural M r.
Proof.
  intros t v m M W [Hn Hd] HM. pose proof (rmin_nonpos t W).
  assert (Wv : wf_raw t v) by (split; rewrite in_rep_iff; lia).
  destruct (reduce_total t v m W Wv ltac:(lia) ltac:(lia)) as [r E]. exists r.
  apply reduce_spec in E as E'; auto. destruct E' as [_ [[[Z _]|[_ [g [G [En [Ed [_ [P1 P2]]]]]]]] _]]; [lia|].
  exists g. split; auto. assert (0 < g).
  { destruct m; [specialize (P1 eq_refl); nia|specialize (P2 eq_refl); auto]. }
  split; auto. split; auto. split; auto. split; nia.
Qed.

Lemma natural_wf : forall t v M, wf_rep t -> natural M v -> M <= rmax t -> wf_raw t v.
Proof. intros t v M W [Hn Hd] HM. pose proof (rmin_nonpos t W). split; rewrite in_rep_iff; lia. Qed.

Lemma plus_ir_total : forall o t z v M, wf_rep t -> 0 <= z -> natural M v ->
  z * den v + num v <= M -> M <= rmax t ->
  exists r, p_arith (denote o) t Plus (IR z v) = Ok r /\ natural M r.
Proof.
  induction o as [| |o IH m|o IH m]; intros t z v M W Z N B HM; cbn [denote]; pose proof (rmin_nonpos t W) as RN.
  1,2: destruct N as [Hn Hd]; cbn; unfold safe_plus_ir, safe_plus_ri, fast_plus_ir, fast_plus_ri, m_mul, m_add;
    rewrite (arith_in t (z * den v)) by (auto; rewrite in_rep_iff; nia); cbn [bind];
    rewrite (arith_in t (num v + z * den v)) by (auto; rewrite in_rep_iff; nia); cbn [bind];
    eexists; split; [reflexivity|split; cbn [num den]; nia].
  - rewrite ri_arith_eq. cbn [reduce_args].
    destruct (reduce_natural t v m M W N HM) as [r [g [E [G [En [Ed N']]]]]]. rewrite E. cbn [bind].
    apply IH; auto. destruct N as [[? ?] [? ?]], N' as [[? ?] [? ?]].
    assert (z * den v + num v = g * (z * den r + num r)) by (rewrite En, Ed; ring).
    assert (0 <= z * den r + num r) by nia. nia.
  - rewrite ro_arith_eq. destruct (IH t z v M W Z N B HM) as [r [E N']]. rewrite E. cbn [bind].
    destruct (reduce_natural t r m M W N' HM) as [r' [g [E' [_ [_ [_ N'']]]]]]. eauto.
Qed.

Lemma multiplies_total : forall o t u v M, wf_rep t ->
  0 <= num u -> 0 < den u -> 0 <= num v -> 0 < den v ->
  num u <= M -> num v <= M -> den u <= M -> den v <= M ->
  num u * num v <= M -> den u * den v <= M -> M <= rmax t ->
  exists r, p_arith (denote o) t Multiplies (RR u v) = Ok r /\ natural M r.
Proof.
  induction o as [| |o IH m|o IH m]; intros t u v M W U1 U2 V1 V2 A1 A2 A3 A4 B1 B2 HM; cbn [denote]; pose proof (rmin_nonpos t W) as RN.
  1,2: cbn; unfold safe_multiplies_rr, fast_multiplies_rr, m_mul;
    rewrite (arith_in t (num u * num v)) by (auto; rewrite in_rep_iff; nia); cbn [bind];
    rewrite (arith_in t (den u * den v)) by (auto; rewrite in_rep_iff; nia); cbn [bind];
    eexists; split; [reflexivity|split; cbn [num den]; nia].
  - rewrite ri_arith_eq. cbn [reduce_args].
    destruct (reduce_natural t u m M W ltac:(split; lia) HM) as [u' [g [E [G [En [Ed N']]]]]]. rewrite E. cbn [bind].
    destruct (reduce_natural t v m M W ltac:(split; lia) HM) as [v' [h [E' [G' [En' [Ed' N'']]]]]]. rewrite E'. cbn [bind].
    destruct N' as [? ?], N'' as [? ?].
    assert (num u' <= num u) by nia. assert (num v' <= num v) by nia.
    assert (den u' <= den u) by nia. assert (den v' <= den v) by nia.
    apply IH; auto; try lia; clear - H H0 H1 H2 H3 H4 H5 H6 B1 B2 U1 U2 V1 V2; nia.
  - rewrite ro_arith_eq. destruct (IH t u v M) as [r [E N']]; auto. rewrite E. cbn [bind].
    destruct (reduce_natural t r m M W N' HM) as [r' [g [E' [_ [_ [_ N'']]]]]]. eauto.
Qed.

Lemma to_int_total : forall t base s M, wf_rep t -> base_ok base -> empty_or (digit_seq base) s ->
  base ^ num_digits s <= M -> M <= rmax t -> digit_sequence_to_int t s base = Ok (seq_value base s).
Proof.
  intros t base s M W B E L HM. apply empty_or_chars in E. unfold digit_sequence_to_int.
  pose proof (rmax_big t W). rewrite digits_loop_spec; auto; try lia.
  - rewrite !Z.mul_1_l. rewrite (proj2 (Z.leb_le _ _)) by lia. reflexivity.
  - unfold base_ok in B. lia.
Qed.

Theorem string_to_fraction_natural : forall o t l, wf_rep t -> valid_literal l ->
  Z.of_nat (length (spell l)) <= 2147483647 ->
  exponent_digits l <= 9 ->
  l_base l ^ (num_digits (l_whole l) + num_digits (l_fraction l))
    * (if is_hex l then 2 else 10) ^ Z.abs (l_scale l) <= rmax t ->
  exists r, string_to_fraction (denote o) t (spell l) = Ok r /\
    natural (l_base l ^ (num_digits (l_whole l) + num_digits (l_fraction l))
             * (if is_hex l then 2 else 10) ^ Z.abs (l_scale l)) r.
Proof.
  intros o t l W V L XD HB. unfold string_to_fraction.
  rewrite scan_eq by (unfold small, sv_size; lia). cbn [bind].
  destruct (scan_complete l V) as [sc [E [P PR]]]. rewrite E. clear E.
  pose proof P as [PB [PW [PF PE]]]. rewrite PB, PW, PF, PR, (base_cast t l W).
  pose proof V as [_ [VW [VF [_ VE]]]].
  assert (LF : Z.of_nat (length (l_fraction l)) <= 2147483647).
  { unfold spell in L. rewrite !app_length in L. lia. }
  rewrite (count_digits_spec (l_base l)) by (auto; now apply empty_or_chars).
  pose proof (num_digits_nonneg (l_fraction l)) as NN. pose proof (num_digits_nonneg (l_whole l)) as NW.
  assert (NL : num_digits (l_fraction l) <= Z.of_nat (length (l_fraction l))).
  { unfold num_digits. generalize (l_fraction l). clear. induction l as [|c s IH]; cbn; [lia|].
    destruct (digit_value c); cbn [length]; lia. }
  destruct (int_cast t (num_digits (l_fraction l)) W ltac:(lia)) as [C1 C2]. rewrite C1.
  assert (WB : in_rep t (l_base l) = true) by (apply int_cast; auto; unfold l_base; destruct (is_hex l); lia).
  rewrite pow_fuel_enough by auto.
  assert (BB : 2 <= l_base l) by (unfold l_base; destruct (is_hex l); lia).
  set (eb := if is_hex l then 2 else 10) in *.
  assert (EB : (if l_base l =? 10 then 10 else 2) = eb) by (unfold eb, l_base; destruct (is_hex l); reflexivity).
  rewrite EB.
  rewrite Z.pow_add_r in HB |- * by auto.
  pose proof (Z.pow_pos_nonneg (l_base l) (num_digits (l_whole l)) ltac:(lia) NW) as PW1.
  pose proof (Z.pow_pos_nonneg (l_base l) (num_digits (l_fraction l)) ltac:(lia) NN) as PF1.
  pose proof (Z.pow_pos_nonneg eb (Z.abs (l_scale l)) ltac:(unfold eb; destruct (is_hex l); lia) ltac:(lia)) as PS1.
  set (W1 := l_base l ^ num_digits (l_whole l)) in *. set (F1 := l_base l ^ num_digits (l_fraction l)) in *.
  set (S1 := eb ^ Z.abs (l_scale l)) in *.
  assert (WF : 1 <= W1 * F1) by nia.
  assert (L1 : W1 <= rmax t) by nia. assert (L2 : F1 <= rmax t) by nia. assert (L3 : S1 <= rmax t) by nia.
  rewrite (to_int_total t _ (l_whole l) (rmax t)) by (auto; try apply l_base_ok; lia). cbn [bind].
  rewrite (to_int_total t _ (l_fraction l) (rmax t)) by (auto; try apply l_base_ok; lia). cbn [bind].
  pose proof (rmin_nonpos t W) as RN.
  rewrite (arith_in t F1) by (auto; rewrite in_rep_iff; lia). cbn [bind].
  assert (XS : (do digits <- digit_sequence_to_int int32 (sc_exponent sc) 10;
    m_mul int32 (if sc_negative sc then -1 else 1) digits) = Ok (l_scale l) /\ Z.abs (l_scale l) < 1000000000).
  { assert (G : exists x, (do digits <- digit_sequence_to_int int32 (sc_exponent sc) 10;
      m_mul int32 (if sc_negative sc then -1 else 1) digits) = Ok x).
    { unfold exponent_digits in XD. destruct (l_exponent l) as [e|].
      - destruct PE as [PE _], VE as [_ [_ VD]]. rewrite PE.
        assert (10 ^ num_digits (x_digits e) <= 10 ^ 9) by (apply Z.pow_le_mono_r; lia).
        change (10 ^ 9) with 1000000000 in *.
        rewrite (to_int_total int32 10 (x_digits e) 1000000000);
          [|unfold wf_rep; cbn; lia|now left|now right|auto|cbn; lia].
        cbn [bind]. unfold m_mul.
        pose proof (seq_value_bounds 10 (x_digits e) ltac:(lia) (digit_seq_chars _ _ VD)).
        rewrite arith_in; [eauto|unfold wf_rep; cbn; lia|]. rewrite in_rep_iff.
        change (rmin int32) with (-2147483648). change (rmax int32) with 2147483647.
        destruct (sc_negative sc); lia.
      - destruct PE as [-> ->]. eexists. reflexivity. }
    destruct G as [x X]. destruct (scale_ok l sc x V P X) as [-> K]. auto. }
  destruct XS as [XS XB].
  destruct (digit_sequence_to_int int32 (sc_exponent sc) 10) as [ds|]; [|discriminate]. cbn [bind] in *.
  rewrite XS. cbn [bind]. rewrite !f_arith_self.
  set (w := seq_value (l_base l) (l_whole l)) in *. set (n := seq_value (l_base l) (l_fraction l)) in *.
  pose proof (seq_value_bounds (l_base l) (l_whole l) BB (empty_or_chars _ _ VW)) as BW. fold w W1 in BW.
  pose proof (seq_value_bounds (l_base l) (l_fraction l) BB (empty_or_chars _ _ VF)) as BF. fold n F1 in BF.
  destruct (plus_ir_total o t w (mkRaw n F1) (W1 * F1)) as [sum [E1 [N1 N2]]]; auto.
  - lia.
  - split; cbn [num den]; nia.
  - cbn [num den]. nia.
  - nia.
  - rewrite E1. cbn [bind].
    assert (IB : in_rep t eb = true) by (apply int_cast; auto; unfold eb; destruct (is_hex l); lia).
    rewrite f_pow_eq by (auto; lia). fold S1.
    rewrite (arith_in t S1) by (auto; rewrite in_rep_iff; lia). cbn [bind]. rewrite f_arith_self.
    destruct (l_scale l >=? 0).
    + destruct (multiplies_total o t sum (mkRaw S1 1) (W1 * F1 * S1)) as [r [H H']]; cbn [num den]; eauto; try lia; nia.
    + destruct (multiplies_total o t sum (mkRaw 1 S1) (W1 * F1 * S1)) as [r [H H']]; cbn [num den]; eauto; try lia; nia.
Qed.

Theorem string_to_fraction_total : forall o t l, wf_rep t -> valid_literal l ->
  Z.of_nat (length (spell l)) <= 2147483647 ->
  exponent_digits l <= 9 ->
  l_base l ^ (num_digits (l_whole l) + num_digits (l_fraction l))
    * (if is_hex l then 2 else 10) ^ Z.abs (l_scale l) <= rmax t ->
  exists r, string_to_fraction (denote o) t (spell l) = Ok r.
Proof.
  intros o t l W V L X B. destruct (string_to_fraction_natural o t l W V L X B) as (r & E & _). eauto.
Qed.

(** ** Literals without a point *)

Lemma scan_no_dot : forall s, ~ In 46 s -> scan_fun s = None.
Proof.
  intros s N. unfold scan_fun. destruct (strip_prefix s) as [hex body] eqn:E.
  assert (NB : ~ In 46 body).
  { apply strip_cases in E as [[_ ->]|[_ [->| ->]]]; auto; intros K; apply N; right; now right. }
  rewrite (proj2 (split_at_none 46 body) NB). reflexivity.
Qed.

Lemma pointless_no_dot : forall l, valid_pointless l -> ~ In 46 (spell_pointless l).
Proof.
  intros [px ds [c sg xs]] V. unfold valid_pointless in V. cbn [p_prefix p_digits p_exponent] in V.
  assert (G : exists base, base_ok base /\ digit_seq base ds /\ digit_seq 10 xs /\ ~ In 46 px /\ c <> 46 /\
    (sg = None \/ sg = Some 43 \/ sg = Some 45)).
  { destruct V as [[-> [D [C [S X]]]]|[P [D [C [S X]]]]]; cbn [x_letter x_sign x_digits] in *.
    - exists 10. repeat split; auto; [now left|lia].
    - exists 16. repeat split; auto; [now right| |lia].
      destruct P as [-> | ->]; cbn; lia. }
  destruct G as [base [B [D [X [P [C S]]]]]].
  unfold spell_pointless. cbn [p_prefix p_digits p_exponent spell_exponent x_letter x_sign x_digits].
  assert (Q : ~ is_digit base 46 /\ ~ is_digit 10 46).
  { split; rewrite is_digit_cases; auto; try (now left); lia. }
  intros K. apply in_app_or in K as [K|K]; [auto|]. apply in_app_or in K as [K|[K|K]].
  - revert K. apply (not_in_seq base); auto; [now right|lia|tauto].
  - auto.
  - apply in_app_or in K as [K|K].
    + destruct S as [->|[->| ->]]; cbn in K; lia.
    + revert K. apply (not_in_seq 10); [now left|now right|lia|tauto].
Qed.
