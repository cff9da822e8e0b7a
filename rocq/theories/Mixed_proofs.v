(** Proofs about mixed numbers. *)

From Coq Require Import ZArith QArith List Bool Lia Lqa.
From Verif Require Import Machine Raw Ops Spec Fraction Fmath Fmath_spec Mixed Mixed_spec.
From Verif Require Import Machine_proofs Value_proofs Ops_proofs Algebra_proofs Qtrunc_proofs Fraction_proofs
  Fmath_proofs Limits_proofs Literals_proofs.
Import ListNotations.
Open Scope Z_scope.

Lemma mu_abs_ok : forall t v r, rsigned t = true -> mu_abs t v = Ok r -> r = Z.abs v.
Proof.
  intros t v r S H. unfold mu_abs in H. destruct (Z.geb_spec v 0).
  - inversion H. lia.
  - apply (arith_signed _ _ _ S) in H as [H _]. lia.
Qed.

Lemma is_improper_ok : forall t v b, rsigned t = true -> is_improper t v = Ok b ->
  b = negb (Z.abs (num v) <? Z.abs (den v)).
Proof.
  intros t v b S H. unfold is_improper, is_proper in H. destruct (mu_abs t (num v)) eqn:E; cbn [bind] in H; [|discriminate].
  destruct (mu_abs t (den v)) eqn:E0; cbn [bind] in H; [|discriminate]. inversion H.
  apply mu_abs_ok in E; auto. apply mu_abs_ok in E0; auto. now subst.
Qed.

Lemma proper_value : forall n d, Z.abs n < Z.abs d ->
  (-(1) < inject_Z n / inject_Z d < 1)%Q.
Proof.
  intros n d H. assert (d <> 0) by lia.
  change 1%Q with (inject_Z 1). change (- inject_Z 1)%Q with (inject_Z (-1)). split.
  - apply Qlt_int_div; auto. nia.
  - apply Qdiv_lt_int; auto. nia.
Qed.

Lemma trunc_remainder : forall q, (-(1) < q - inject_Z (Qtrunc q) < 1)%Q.
Proof.
  intros q. destruct (Qlt_le_dec q 0) as [N|P].
  - destruct (Qtrunc_neg q) as [A B]; [lra|]. split; lra.
  - destruct (Qtrunc_pos q P) as [A B]. split; lra.
Qed.

Lemma minus_int_exact : forall o t v z r, wf_rep t -> rsigned t = true -> wf_raw t v -> in_rep t z = true ->
  p_arith (denote o) t Minus (RI v z) = Ok r -> forall q, value v = Some q ->
  wf_raw t r /\ exists q', value r = Some q' /\ (q' == q - inject_Z z)%Q.
Proof.
  intros o t v z r W S A Z H q V. assert (WA : wf_args t (RI v z)) by (split; auto).
  split; [now apply (arith_wf o t Minus (RI v z) r)|].
  pose proof (denote_exact_opt o t Minus (RI v z) r W S WA ltac:(left; discriminate) H) as X.
  cbn [left_value right_value] in X. rewrite V in X. cbn in X.
  destruct (value r) as [q'|]; [|contradiction]. eauto.
Qed.

Lemma int_plus_exact : forall o t v z r, wf_rep t -> rsigned t = true -> wf_raw t v -> in_rep t z = true ->
  p_arith (denote o) t Plus (IR z v) = Ok r -> forall q, value v = Some q ->
  wf_raw t r /\ exists q', value r = Some q' /\ (q' == inject_Z z + q)%Q.
Proof.
  intros o t v z r W S A Z H q V. assert (WA : wf_args t (IR z v)) by (split; auto).
  split; [now apply (arith_wf o t Plus (IR z v) r)|].
  pose proof (denote_exact_opt o t Plus (IR z v) r W S WA ltac:(left; discriminate) H) as X.
  cbn [left_value right_value] in X. rewrite V in X. cbn in X.
  destruct (value r) as [q'|]; [|contradiction]. eauto.
Qed.

(** The integer part of the fractional argument fits the whole type. *)
Definition trunc_fits (tw : rep) (f : raw) : Prop :=
  forall q, value f = Some q -> in_rep tw (Qtrunc q) = true.

Lemma fix_improper_spec : forall o tw tf m m',
  signed_rep tw -> signed_rep tf -> wf_mixed tw tf m -> trunc_fits tw (fractional m) ->
  fix_improper (denote o) tw tf m = Ok m' ->
  wf_mixed tw tf m' /\ exists q q', value (fractional m) = Some q /\ value (fractional m') = Some q' /\
    (-(1) < q' < 1)%Q /\ (inject_Z (whole m') + q' == inject_Z (whole m) + q)%Q.
Proof.
  intros o tw tf [w f] m' [Ww Sw] [Wf Sf] [Mw Mf] T H. cbn [whole fractional] in *.
  unfold fix_improper in H. cbn [whole fractional] in H.
  destruct (is_improper tf f) as [b|] eqn:E; cbn [bind] in H; [|discriminate].
  apply is_improper_ok in E; auto. destruct b.
  - inv_bind H. rename E0 into ET, E1 into EA, E2 into EM.
    inversion H; subst m'; clear H. cbn [whole fractional].
    apply f_trunc_ok in ET as ET'; auto. destruct ET' as [D K].
    assert (KI : in_rep tf a = true) by (eapply m_div_result_in; eauto).
    rewrite f_assign_fits in EM; auto; [|split; auto]. cbn [operand_args] in EM.
    assert (V : value f = Some (inject_Z (num f) / inject_Z (den f))%Q) by now apply value_defined.
    pose proof (T _ V) as TW. rewrite Qtrunc_div in TW by auto. rewrite <- K in TW.
    unfold cast in EA. rewrite wrap_id in EA; auto.
    apply (arith_signed _ _ _ Sw) in EA as [-> EA].
    destruct (minus_int_exact o tf f a a1 Wf Sf Mf KI EM _ V) as [W1 [q' [V' Q']]].
    split; [split; auto|]. exists (inject_Z (num f) / inject_Z (den f))%Q, q'.
    repeat split; auto.
    + pose proof (trunc_remainder (inject_Z (num f) / inject_Z (den f))) as R.
      rewrite Qtrunc_div in R by auto. rewrite <- K in R. rewrite Q'. apply R.
    + pose proof (trunc_remainder (inject_Z (num f) / inject_Z (den f))) as R.
      rewrite Qtrunc_div in R by auto. rewrite <- K in R. rewrite Q'. apply R.
    + rewrite inject_Z_plus, Q'. ring.
  - inversion H; subst m'; clear H. cbn [whole fractional].
    symmetry in E. rewrite negb_false_iff, Z.ltb_lt in E.
    assert (D : den f <> 0) by lia. split; [split; auto|].
    exists (inject_Z (num f) / inject_Z (den f))%Q, (inject_Z (num f) / inject_Z (den f))%Q.
    rewrite (value_defined f D). repeat split; auto; try apply (proper_value _ _ E).
Qed.

Lemma is_negative_value : forall v q, value v = Some q -> (is_negative v = true <-> (q < 0)%Q).
Proof.
  intros v q V. apply value_some in V as [D ->].
  change 0%Q with (inject_Z 0). rewrite Qdiv_lt_int; auto. unfold is_negative.
  rewrite orb_true_iff, !andb_true_iff, !Z.gtb_lt, !Z.ltb_lt. split; [nia|].
  intros H. destruct (Z_lt_ge_dec (den v) 0); [left|right]; nia.
Qed.

Lemma is_positive_value : forall v q, value v = Some q -> (is_positive v = true <-> (0 < q)%Q).
Proof.
  intros v q V. apply value_some in V as [D ->].
  change 0%Q with (inject_Z 0). rewrite Qlt_int_div; auto. unfold is_positive.
  rewrite orb_true_iff, !andb_true_iff, !Z.gtb_lt, !Z.ltb_lt. split; [nia|].
  intros H. destruct (Z_lt_ge_dec (den v) 0); [right|left]; nia.
Qed.

Lemma one_in : forall t, signed_rep t -> in_rep t 1 = true /\ in_rep t (-1) = true.
Proof.
  intros t [W S]. pose proof (rmax_big t W). pose proof (rmin_rmax_signed t S).
  split; apply in_rep_iff; lia.
Qed.

Lemma fix_signs_spec : forall o tw tf m m' q,
  signed_rep tw -> signed_rep tf -> wf_mixed tw tf m ->
  value (fractional m) = Some q -> (-(1) < q < 1)%Q ->
  fix_signs (denote o) tw tf m = Ok m' ->
  wf_mixed tw tf m' /\ exists q', value (fractional m') = Some q' /\
    (-(1) < q' < 1)%Q /\ (inject_Z (whole m') + q' == inject_Z (whole m) + q)%Q /\
    (0 < whole m' -> (0 <= q')%Q) /\ (whole m' < 0 -> (q' <= 0)%Q).
Proof.
  intros o tw tf [w f] m' q SW SF [Mw Mf] V R H. cbn [whole fractional] in *.
  pose proof (one_in tf SF) as [I1 I2]. destruct SW as [Ww Sw], SF as [Wf Sf].
  unfold fix_signs in H. cbn [whole fractional] in H.
  destruct ((w >? 0) && is_negative f) eqn:C1.
  - apply andb_true_iff in C1 as [C1 C2]. apply Z.gtb_lt in C1.
    apply (is_negative_value f q V) in C2.
    inv_bind H. inversion H; subst m'; clear H. cbn [whole fractional].
    apply (arith_signed _ _ _ Sw) in E as [-> E]. rewrite f_arith_self in E0.
    destruct (int_plus_exact o tf f 1 a0 Wf Sf Mf I1 E0 _ V) as [W1 [q' [V' Q']]].
    change (inject_Z 1) with 1%Q in Q'.
    split; [split; auto|]. exists q'. repeat split; auto; try (rewrite Q'; lra).
    + unfold Z.sub. rewrite inject_Z_plus, Q'. change (inject_Z (- (1))) with (- (1))%Q. ring.
    + intros. lia.
  - destruct ((w <? 0) && is_positive f) eqn:C2.
    + apply andb_true_iff in C2 as [C2 C3]. apply Z.ltb_lt in C2.
      apply (is_positive_value f q V) in C3.
      inv_bind H. inversion H; subst m'; clear H. cbn [whole fractional].
      apply (arith_signed _ _ _ Sw) in E as [-> E].
      apply (arith_signed _ _ _ Sf) in E0 as [-> E0]. rewrite f_arith_self in E1.
      destruct (int_plus_exact o tf f (-(1)) a1 Wf Sf Mf I2 E1 _ V) as [W1 [q' [V' Q']]].
      change (inject_Z (-(1))) with (-(1))%Q in Q'.
      split; [split; auto|]. exists q'. repeat split; auto; try (rewrite Q'; lra).
      * rewrite inject_Z_plus, Q'. change (inject_Z 1) with 1%Q. ring.
      * intros. lia.
    + inversion H; subst m'; clear H. cbn [whole fractional]. split; [split; auto|]. exists q.
      repeat split; auto; try apply R; try reflexivity.
      * intros P. apply andb_false_iff in C1 as [C1|C1].
        { rewrite Z.gtb_ltb, Z.ltb_ge in C1. lia. }
        destruct (Qlt_le_dec q 0) as [N|N]; auto. apply (is_negative_value f q V) in N. congruence.
      * intros P. apply andb_false_iff in C2 as [C2|C2].
        { rewrite Z.ltb_ge in C2. lia. }
        destruct (Qlt_le_dec 0 q) as [N|N]; auto. apply (is_positive_value f q V) in N. congruence.
Qed.

(** C42 *)
Theorem mixed_make_spec : forall o tw tf w f m,
  signed_rep tw -> signed_rep tf -> in_rep tw w = true -> wf_raw tf f -> trunc_fits tw f ->
  mixed_make (denote o) tw tf w f = Ok m ->
  wf_mixed tw tf m /\ normal_form m /\ value f <> None /\
  same_value (mixed_value m) (sum_value w (value f)).
Proof.
  intros o tw tf w f m SW SF Iw If T H. unfold mixed_make, mixed_fix in H.
  destruct (fix_improper (denote o) tw tf (mkMixed w f)) as [m1|] eqn:E; cbn [bind] in H; [|discriminate].
  assert (M0 : wf_mixed tw tf (mkMixed w f)) by (split; auto).
  destruct (fix_improper_spec o tw tf _ _ SW SF M0 T E) as [M1 [q [q1 [V [V1 [R1 Q1]]]]]].
  destruct (fix_signs_spec o tw tf _ _ _ SW SF M1 V1 R1 H) as [M2 [q2 [V2 [R2 [Q2 [P2 N2]]]]]].
  cbn [whole fractional] in *. split; [exact M2|]. split; [exists q2; auto|]. split; [congruence|].
  unfold mixed_value. rewrite V2, V. cbn. now rewrite Q2, Q1.
Qed.

Lemma value_in_width : forall s t z, signed_rep s -> signed_rep t -> rbits s <= rbits t ->
  in_rep s z = true -> in_rep t z = true.
Proof.
  intros s t z [Ws Ss] [Wt St] L H. unfold wf_rep in *.
  apply (range_le_in s t z); auto. apply range_le_same; [congruence|lia].
Qed.

Lemma trunc_in : forall t v, wf_rep t -> wf_raw t v -> rsigned t = true -> den v <> 0 ->
  ~ (num v = rmin t /\ den v = -1) -> in_rep t (Z.quot (num v) (den v)) = true.
Proof.
  intros t v W A S D N. destruct (proj2 (f_trunc_defined t v W A)) as [k K].
  - split; auto. tauto.
  - pose proof (m_div_result_in _ _ _ _ W K). apply f_trunc_ok in K as [_ K]; auto. congruence.
Qed.

Lemma make_trunc_fits : forall o tw tf w f m,
  signed_rep tw -> signed_rep tf -> wf_raw tf f -> rbits tf <= rbits tw ->
  mixed_make (denote o) tw tf w f = Ok m -> trunc_fits tw f.
Proof.
  intros o tw tf w f m SW SF If L H q V. apply (value_in_width tf tw); auto.
  destruct SF as [Wf Sf]. apply value_some in V as [D ->]. rewrite Qtrunc_div by auto.
  apply trunc_in; auto. intros [N _].
  unfold mixed_make, mixed_fix, fix_improper, is_improper, is_proper, mu_abs in H.
  cbn [fractional] in H. rewrite N in H. pose proof (rmin_rmax_signed tf Sf). pose proof (rmax_big tf Wf).
  destruct (Z.geb_spec (rmin tf) 0); [lia|]. unfold m_neg, arith in H. rewrite Sf in H.
  replace (in_rep tf (- rmin tf)) with false in H; [discriminate|].
  symmetry. apply not_true_is_false. rewrite in_rep_iff. lia.
Qed.

Theorem mixed_make_wide : forall o tw tf w f m,
  signed_rep tw -> signed_rep tf -> rbits tf <= rbits tw -> in_rep tw w = true -> wf_raw tf f ->
  mixed_make (denote o) tw tf w f = Ok m ->
  wf_mixed tw tf m /\ normal_form m /\ value f <> None /\
  same_value (mixed_value m) (sum_value w (value f)).
Proof.
  intros o tw tf w f m SW SF L Iw If H. apply (mixed_make_spec o tw tf w f m); auto.
  eapply make_trunc_fits; eauto.
Qed.

(** An undefined fractional part always has undefined behaviour. *)
Lemma mixed_make_undefined : forall p tw tf w f, wf_rep tf -> wf_raw tf f -> den f = 0 ->
  exists u, mixed_make p tw tf w f = UB u.
Proof.
  intros p tw tf w f W A D. unfold mixed_make, mixed_fix, fix_improper. cbn [fractional].
  unfold is_improper, is_proper. destruct (mu_abs tf (num f)) as [n|u] eqn:E; cbn [bind]; [|eauto].
  rewrite D. replace (mu_abs tf 0) with (Ok 0) by reflexivity. cbn [bind].
  assert (N : 0 <= n).
  { unfold mu_abs in E. destruct (Z.geb_spec (num f) 0); [inversion E; lia|].
    unfold m_neg, arith in E. destruct (rsigned tf) eqn:S.
    - destruct (in_rep tf (- num f)); inversion E. lia.
    - destruct A as [A _]. apply in_rep_iff in A. rewrite (rmin_unsigned tf S) in A. lia. }
  replace (n <? 0) with false by (symmetry; apply Z.ltb_ge; lia). cbn [negb bind].
  unfold f_trunc, m_div. rewrite D. cbn. eauto.
Qed.

(** C43 *)
Theorem mixed_of_fraction_spec : forall o tw tf to v m,
  signed_rep tw -> signed_rep tf -> signed_rep to -> wf_raw to v ->
  rbits to <= rbits tf -> trunc_fits tw v ->
  mixed_of_fraction (denote o) tw tf to v = Ok m ->
  wf_mixed tw tf m /\ normal_form m /\
  exists q, value v = Some q /\ whole m = Qtrunc q /\ same_value (mixed_value m) (Some q).
Proof.
  intros o tw tf to v m [Ww Sw] SF SO A L T H. pose proof SO as [Wo So]. pose proof SF as [Wf Sf].
  unfold mixed_of_fraction in H. inv_bind H. rename E into ET, E0 into EM.
  inversion H; subst m; clear H. cbn [whole fractional].
  apply f_trunc_ok in ET as K; auto. destruct K as [D K].
  pose proof (m_div_result_in _ _ _ _ Wo ET) as KI.
  pose proof (value_defined v D) as V. pose proof (T _ V) as TW.
  set (q := (inject_Z (num v) / inject_Z (den v))%Q) in *.
  assert (KQ : a = Qtrunc q) by (unfold q; rewrite Qtrunc_div; auto).
  rewrite <- KQ in TW. unfold cast in *. rewrite (wrap_id tw a) in *; auto. rewrite (wrap_id to a) in EM; auto.
  rewrite f_arith_self in EM.
  destruct (minus_int_exact o to v a a0 Wo So A KI EM _ V) as [W1 [q' [V' Q']]].
  assert (WF1 : wf_raw tf a0).
  { destruct W1 as [X Y]. split; now apply (value_in_width to tf). }
  unfold f_convert. rewrite conv_raw_id by auto.
  pose proof (trunc_remainder q) as R. rewrite <- KQ in R.
  pose proof (Qtrunc_sign q) as SG. rewrite <- KQ in SG.
  split; [split; auto|]. split.
  - exists q'. cbn [whole fractional]. split; [auto|]. split; [split; rewrite Q'; apply R|]. split.
    + intros P. destruct (Qlt_le_dec q 0) as [N|N]; [assert (a <= 0) by (apply SG; lra); lia|].
      destruct (Qtrunc_pos q N) as [B _]. rewrite <- KQ in B. rewrite Q'. lra.
    + intros P. destruct (Qlt_le_dec q 0) as [N|N]; [|assert (0 <= a) by (apply SG; lra); lia].
      destruct (Qtrunc_neg q) as [B _]; [lra|]. rewrite <- KQ in B. rewrite Q'. lra.
  - exists q. split; [auto|]. split; [exact KQ|]. unfold mixed_value. cbn [whole fractional]. rewrite V'.
    cbn. rewrite Q'. ring.
Qed.

Lemma of_fraction_trunc_fits : forall p tw tf to v m,
  signed_rep tw -> signed_rep to -> wf_raw to v -> rbits to <= rbits tw ->
  mixed_of_fraction p tw tf to v = Ok m -> trunc_fits tw v.
Proof.
  intros p tw tf to v m SW SO A L H q V. pose proof SO as [Wo So]. unfold mixed_of_fraction in H.
  destruct (f_trunc to v) as [k|] eqn:E; [|discriminate].
  apply f_trunc_ok in E as K; auto. destruct K as [D K]. pose proof (m_div_result_in _ _ _ _ Wo E) as KI.
  apply value_some in V as [_ ->]. rewrite Qtrunc_div, <- K by auto. now apply (value_in_width to tw).
Qed.

Lemma common_signed : forall a b, signed_rep a -> signed_rep b ->
  signed_rep (common_rep a b) /\ rbits a <= rbits (common_rep a b) /\ rbits b <= rbits (common_rep a b).
Proof.
  intros a b [Wa Sa] [Wb Sb]. unfold signed_rep. unfold common_rep. rewrite Sa, Sb. cbn [Bool.eqb].
  unfold wf_rep in *. destruct (Z.ltb_spec (rbits a) (rbits b)); repeat split; auto; lia.
Qed.

Lemma conv_wide : forall s t v, signed_rep s -> signed_rep t -> rbits s <= rbits t -> wf_raw s v ->
  f_convert s t v = v /\ wf_raw t v.
Proof.
  intros s t v SS ST L [X Y]. assert (W : wf_raw t v) by (split; now apply (value_in_width s t)).
  split; auto. unfold f_convert. apply conv_raw_id; auto. apply ST.
Qed.

Lemma cast_wide : forall s t z, signed_rep s -> signed_rep t -> rbits s <= rbits t -> in_rep s z = true ->
  cast t z = z /\ in_rep t z = true.
Proof.
  intros s t z SS ST L I. assert (in_rep t z = true) by now apply (value_in_width s t).
  split; auto. unfold cast. apply wrap_id; auto. apply ST.
Qed.

(** Converting back, for any mixed number. *)
Theorem as_fraction_exact : forall o tw tf m r,
  signed_rep tw -> signed_rep tf -> wf_mixed tw tf m ->
  mixed_as_fraction (denote o) tw tf m = Ok r ->
  wf_raw (common_rep tw tf) r /\ same_value (value r) (mixed_value m).
Proof.
  intros o tw tf m r SW SF [Mw Mf] H. unfold mixed_as_fraction in H.
  destruct (common_signed tw tf SW SF) as [SC [L1 L2]].
  destruct (cast_wide tw (common_rep tw tf) (whole m)) as [C1 C2]; auto.
  destruct (conv_wide tf (common_rep tw tf) (fractional m)) as [D1 D2]; auto.
  rewrite C1, D1, f_arith_self in H. destruct SC as [Wc Sc].
  assert (WA : wf_args (common_rep tw tf) (IR (whole m) (fractional m))) by (split; auto).
  split; [eapply arith_wf; eauto|].
  pose proof (denote_exact_opt o (common_rep tw tf) Plus (IR (whole m) (fractional m)) r Wc Sc WA ltac:(left; discriminate) H) as X.
  cbn [left_value right_value exact_opt] in X. unfold mixed_value, sum_value.
  destruct (value (fractional m)); auto.
Qed.

(** C44: single operations. *)
Theorem mixed_negate_spec : forall o tw tf m r,
  signed_rep tw -> signed_rep tf -> rbits tf <= rbits tw -> wf_mixed tw tf m ->
  mixed_negate (denote o) tw tf m = Ok r ->
  wf_mixed tw tf r /\ normal_form r /\ same_value (mixed_value r) (opp_opt (mixed_value m)).
Proof.
  intros o tw tf m r SW SF L [Mw Mf] H. pose proof SW as [Ww Sw]. pose proof SF as [Wf Sf].
  unfold mixed_negate in H. inv_bind H. unfold f_negate in E0.
  unfold m_neg in E. apply (arith_signed _ _ _ Sw) in E as [-> E].
  pose proof (negate_wf _ _ _ _ Wf Mf E0) as W0.
  pose proof (denote_negate o tf _ _ Wf Sf Mf E0) as V0.
  destruct (mixed_make_wide o tw tf _ _ _ SW SF L E W0 H) as [M [N [_ X]]].
  repeat split; auto; try apply M.
  eapply same_trans; [exact X|]. unfold mixed_value.
  destruct (value a0), (value (fractional m)); cbn in *; try contradiction; auto.
  rewrite V0, inject_Z_opp. ring.
Qed.

Theorem mixed_plus_spec : forall o tw1 tf1 tw2 tf2 l r m,
  signed_rep tw1 -> signed_rep tf1 -> signed_rep tw2 -> signed_rep tf2 ->
  rbits tf1 <= rbits tw1 -> rbits tf2 <= rbits tw2 ->
  wf_mixed tw1 tf1 l -> wf_mixed tw2 tf2 r ->
  mixed_plus (denote o) tw1 tf1 tw2 tf2 l r = Ok m ->
  wf_mixed (common_rep tw1 tw2) (common_rep tf1 tf2) m /\ normal_form m /\
  same_value (mixed_value m) (opt_plus (mixed_value l) (mixed_value r)).
Proof.
  intros o tw1 tf1 tw2 tf2 l r m SW1 SF1 SW2 SF2 L1 L2 [Ml Mlf] [Mr Mrf] H.
  destruct (common_signed tw1 tw2 SW1 SW2) as [SW [A1 A2]].
  destruct (common_signed tf1 tf2 SF1 SF2) as [SF [B1 B2]].
  assert (LL : rbits (common_rep tf1 tf2) <= rbits (common_rep tw1 tw2)).
  { unfold common_rep at 1. destruct SF1 as [_ S1], SF2 as [_ S2]. rewrite S1, S2. cbn [Bool.eqb].
    destruct (rbits tf1 <? rbits tf2); lia. }
  unfold mixed_plus in H.
  destruct (cast_wide tw1 (common_rep tw1 tw2) (whole l)) as [C1 C1']; auto.
  destruct (cast_wide tw2 (common_rep tw1 tw2) (whole r)) as [C2 C2']; auto.
  destruct (conv_wide tf1 (common_rep tf1 tf2) (fractional l)) as [D1 D1']; auto.
  destruct (conv_wide tf2 (common_rep tf1 tf2) (fractional r)) as [D2 D2']; auto.
  rewrite C1, C2, D1, D2, f_arith_self in H. inv_bind H.
  pose proof SW as [Ww Sw]. pose proof SF as [Wf Sf].
  unfold m_add in E. apply (arith_signed _ _ _ Sw) in E as [-> E].
  assert (WA : wf_args (common_rep tf1 tf2) (RR (fractional l) (fractional r))) by (split; auto).
  pose proof (arith_wf _ _ _ _ _ Wf WA E0) as W0.
  pose proof (denote_exact_opt o (common_rep tf1 tf2) Plus (RR (fractional l) (fractional r)) a0 Wf Sf WA ltac:(left; discriminate) E0) as V0.
  destruct (mixed_make_wide o _ _ _ _ _ SW SF LL E W0 H) as [M [N [_ X]]].
  repeat split; auto; try apply M.
  eapply same_trans; [exact X|]. unfold mixed_value. cbn [left_value right_value] in V0.
  destruct (value a0), (value (fractional l)), (value (fractional r)); cbn in *; try contradiction; auto.
  rewrite V0, inject_Z_plus. ring.
Qed.

Theorem mixed_plus_fraction_spec : forall o tw tf t l f m,
  signed_rep tw -> signed_rep tf -> signed_rep t -> rbits tf <= rbits tw ->
  wf_mixed tw tf l -> wf_raw t f ->
  mixed_plus_fraction (denote o) tw tf t l f = Ok m ->
  wf_mixed (common_rep tw t) (common_rep tf t) m /\ normal_form m /\
  same_value (mixed_value m) (opt_plus (mixed_value l) (value f)).
Proof.
  intros o tw tf t l f m SW SF ST L M A H. unfold mixed_plus_fraction in H.
  destruct (mixed_of_fraction (denote o) t t t f) as [x|] eqn:E; [cbn [bind] in H|discriminate].
  assert (T : trunc_fits t f) by (eapply of_fraction_trunc_fits; eauto; lia).
  destruct (mixed_of_fraction_spec o t t t f x ST ST ST A (Z.le_refl _) T E) as [X1 [X2 [q [X3 [_ X4]]]]].
  destruct (mixed_plus_spec o tw tf t t l x m) as [Y1 [Y2 Y3]]; auto; try lia.
  repeat split; auto; try apply Y1. eapply same_trans; [exact Y3|]. rewrite X3.
  destruct (mixed_value l), (mixed_value x); cbn in *; try contradiction; auto. now rewrite X4.
Qed.

Theorem mixed_plus_whole_spec : forall o tw tf t l z m,
  signed_rep tw -> signed_rep tf -> signed_rep t -> rbits tf <= rbits tw ->
  wf_mixed tw tf l -> in_rep t z = true ->
  mixed_plus_whole (denote o) tw tf t l z = Ok m ->
  wf_mixed (common_rep tw t) tf m /\ normal_form m /\
  same_value (mixed_value m) (opt_plus (mixed_value l) (Some (inject_Z z))).
Proof.
  intros o tw tf t l z m SW SF ST L [Ml Mlf] I H.
  destruct (common_signed tw t SW ST) as [SC [A1 A2]].
  unfold mixed_plus_whole in H.
  destruct (cast_wide tw (common_rep tw t) (whole l)) as [C1 C1']; auto.
  destruct (cast_wide t (common_rep tw t) z) as [C2 C2']; auto.
  rewrite C1, C2 in H. inv_bind H. pose proof SC as [Wc Sc].
  unfold m_add in E. apply (arith_signed _ _ _ Sc) in E as [-> E].
  destruct (mixed_make_wide o (common_rep tw t) tf _ _ _ SC SF (Z.le_trans _ _ _ L A1) E Mlf H) as [M [N [_ X]]].
  repeat split; auto; try apply M.
  eapply same_trans; [exact X|]. unfold mixed_value.
  destruct (value (fractional l)); cbn; auto. rewrite inject_Z_plus. ring.
Qed.

Lemma opt_plus_comm : forall x y, same_value (opt_plus x y) (opt_plus y x).
Proof. intros [x|] [y|]; cbn; auto. ring. Qed.

Lemma opt_plus_same : forall x x' y y', same_value x x' -> same_value y y' ->
  same_value (opt_plus x y) (opt_plus x' y').
Proof. intros [x|] [x'|] [y|] [y'|] A B; cbn in *; try contradiction; auto. now rewrite A, B. Qed.

Lemma wf_mtype : forall e, wf_mexpr e ->
  signed_rep (fst (mtype e)) /\ signed_rep (snd (mtype e)) /\ rbits (snd (mtype e)) <= rbits (fst (mtype e)).
Proof.
  induction e; cbn [wf_mexpr mtype fst snd]; intros W.
  - destruct W as [A [B [C _]]]. auto.
  - destruct W as [A _]. repeat split; try apply A. lia.
  - auto.
  - auto.
  - destruct W as [W1 W2]. destruct (IHe1 W1) as [A1 [B1 C1]]. destruct (IHe2 W2) as [A2 [B2 C2]].
    destruct (common_signed _ _ A1 A2) as [S [L1 L2]]. destruct (common_signed _ _ B1 B2) as [S' _].
    repeat split; try apply S; try apply S'.
    unfold common_rep at 1. destruct B1 as [_ B1], B2 as [_ B2]. rewrite B1, B2. cbn [Bool.eqb].
    destruct (_ <? _); lia.
  - destruct W as [W1 [W2 _]]. destruct (IHe W1) as [A1 [B1 C1]].
    destruct (common_signed _ _ A1 W2) as [S [L1 L2]]. destruct (common_signed _ _ B1 W2) as [S' _].
    repeat split; try apply S; try apply S'.
    unfold common_rep at 1. destruct B1 as [_ B1], W2 as [_ B2]. rewrite B1, B2. cbn [Bool.eqb].
    destruct (_ <? _); lia.
  - destruct W as [W1 [W2 _]]. destruct (IHe W1) as [A1 [B1 C1]].
    destruct (common_signed _ _ A1 W2) as [S [L1 L2]]. destruct (common_signed _ _ B1 W2) as [S' _].
    repeat split; try apply S; try apply S'.
    unfold common_rep at 1. destruct B1 as [_ B1], W2 as [_ B2]. rewrite B1, B2. cbn [Bool.eqb].
    destruct (_ <? _); lia.
  - destruct W as [W1 [W2 _]]. destruct (IHe W1) as [A1 [B1 C1]].
    destruct (common_signed _ _ A1 W2) as [S [L1 L2]]. repeat split; try apply S; try apply B1. lia.
  - destruct W as [W1 [W2 _]]. destruct (IHe W1) as [A1 [B1 C1]].
    destruct (common_signed _ _ A1 W2) as [S [L1 L2]]. repeat split; try apply S; try apply B1. lia.
Qed.

(** C44: any expression. *)
Theorem meval_exact : forall o e m, wf_mexpr e -> meval (denote o) e = Ok m ->
  wf_mixed (fst (mtype e)) (snd (mtype e)) m /\ normal_form m /\ same_value (mixed_value m) (mdenotes e).
Proof.
  intros o e. induction e; intros m W H; pose proof (wf_mtype _ W) as T; cbn [wf_mexpr meval mtype fst snd mdenotes] in *.
  - destruct W as [SW [SF [L [Iw If]]]].
    destruct (mixed_make_wide o tw tf w f m SW SF L Iw If H) as [M [N [_ X]]]. auto.
  - destruct W as [S A].
    assert (F : trunc_fits t f) by (eapply of_fraction_trunc_fits; eauto; lia).
    destruct (mixed_of_fraction_spec o t t t f m S S S A (Z.le_refl _) F H) as [X1 [X2 [q [X3 [_ X4]]]]].
    repeat split; auto; try apply X1. now rewrite X3.
  - inv_bind H. inversion H; subst. auto.
  - inv_bind H. destruct (IHe _ W eq_refl) as [M [N X]]. destruct T as [T1 [T2 T3]].
    destruct (mixed_negate_spec o _ _ _ _ T1 T2 T3 M H) as [Y1 [Y2 Y3]].
    repeat split; auto; try apply Y1. eapply same_trans; [exact Y3|].
    destruct (mixed_value a), (mdenotes e); cbn in *; try contradiction; auto. now rewrite X.
  - inv_bind H. destruct W as [W1 W2].
    destruct (IHe1 _ W1 eq_refl) as [M1 [N1 X1]]. destruct (IHe2 _ W2 eq_refl) as [M2 [N2 X2]].
    destruct (wf_mtype _ W1) as [A1 [A2 A3]]. destruct (wf_mtype _ W2) as [B1 [B2 B3]].
    destruct (mixed_plus_spec o _ _ _ _ _ _ _ A1 A2 B1 B2 A3 B3 M1 M2 H) as [Y1 [Y2 Y3]].
    repeat split; auto; try apply Y1. eapply same_trans; [exact Y3|]. now apply opt_plus_same.
  - inv_bind H. destruct W as [W1 [W2 W3]]. destruct (IHe _ W1 eq_refl) as [M1 [N1 X1]].
    destruct (wf_mtype _ W1) as [A1 [A2 A3]].
    destruct (mixed_plus_fraction_spec o _ _ _ _ _ _ A1 A2 W2 A3 M1 W3 H) as [Y1 [Y2 Y3]].
    repeat split; auto; try apply Y1. eapply same_trans; [exact Y3|]. apply opt_plus_same; auto. apply same_refl.
  - inv_bind H. destruct W as [W1 [W2 W3]]. destruct (IHe _ W1 eq_refl) as [M1 [N1 X1]].
    destruct (wf_mtype _ W1) as [A1 [A2 A3]]. unfold fraction_plus_mixed in H.
    destruct (mixed_plus_fraction_spec o _ _ _ _ _ _ A1 A2 W2 A3 M1 W3 H) as [Y1 [Y2 Y3]].
    repeat split; auto; try apply Y1. eapply same_trans; [exact Y3|].
    eapply same_trans; [apply opt_plus_comm|]. apply opt_plus_same; auto. apply same_refl.
  - inv_bind H. destruct W as [W1 [W2 W3]]. destruct (IHe _ W1 eq_refl) as [M1 [N1 X1]].
    destruct (wf_mtype _ W1) as [A1 [A2 A3]].
    destruct (mixed_plus_whole_spec o _ _ _ _ _ _ A1 A2 W2 A3 M1 W3 H) as [Y1 [Y2 Y3]].
    repeat split; auto; try apply Y1. eapply same_trans; [exact Y3|]. apply opt_plus_same; auto. apply same_refl.
  - inv_bind H. destruct W as [W1 [W2 W3]]. destruct (IHe _ W1 eq_refl) as [M1 [N1 X1]].
    destruct (wf_mtype _ W1) as [A1 [A2 A3]]. unfold whole_plus_mixed in H.
    destruct (mixed_plus_whole_spec o _ _ _ _ _ _ A1 A2 W2 A3 M1 W3 H) as [Y1 [Y2 Y3]].
    repeat split; auto; try apply Y1. eapply same_trans; [exact Y3|].
    eapply same_trans; [apply opt_plus_comm|]. apply opt_plus_same; auto. apply same_refl.
Qed.

(** The normal form of a value is unique. *)
Lemma normal_whole : forall m q, normal_form m -> same_value (mixed_value m) (Some q) -> whole m = Qtrunc q.
Proof.
  intros m q [f [V [R [P N]]]] X. unfold mixed_value in X. rewrite V in X. cbn in X.
  symmetry. apply Qtrunc_unique.
  destruct (Z_lt_ge_dec (whole m) 0) as [L|L].
  - right. specialize (N L).
    assert (inject_Z (whole m) <= 0)%Q by (change 0%Q with (inject_Z 0); rewrite <- Zle_Qle; lia).
    repeat split; lra.
  - assert (0 <= inject_Z (whole m))%Q by (change 0%Q with (inject_Z 0); rewrite <- Zle_Qle; lia).
    destruct (Z.eq_dec (whole m) 0) as [E|E].
    + rewrite E in *. change (inject_Z 0) with 0%Q in *.
      destruct (Qlt_le_dec f 0); [right|left]; repeat split; lra.
    + left. assert (0 <= f)%Q by (apply P; lia). repeat split; lra.
Qed.

Theorem normal_unique : forall a b, normal_form a -> normal_form b ->
  same_value (mixed_value a) (mixed_value b) ->
  whole a = whole b /\ same_value (value (fractional a)) (value (fractional b)).
Proof.
  intros a b A B E. pose proof A as [fa [VA _]]. pose proof B as [fb [VB _]].
  assert (EA : whole a = Qtrunc (inject_Z (whole b) + fb)).
  { apply normal_whole; auto. eapply same_trans; [exact E|]. unfold mixed_value. rewrite VB. apply same_refl. }
  assert (EB : whole b = Qtrunc (inject_Z (whole b) + fb)).
  { apply normal_whole; auto. unfold mixed_value. rewrite VB. apply same_refl. }
  assert (W : whole a = whole b) by congruence. split; auto.
  unfold mixed_value in E. rewrite VA, VB in *. cbn in *. rewrite W in E. lra.
Qed.
