(** Ring laws bit for bit, strict weak ordering, raw queries and math. *)

From Coq Require Import ZArith QArith Qabs Bool Lia Znumtheory Zquot Setoid Morphisms.
From Verif Require Import Machine Raw Ops Spec Machine_proofs Value_proofs Ops_proofs Total_proofs Cmp_proofs Order_proofs Algebra_proofs.
Open Scope Z_scope.

(** ** Ring laws *)

Section Ring.
Variables (o : ops) (t : rep).
Hypothesis W : wf_rep t.
Hypothesis S : rsigned t = true.
Hypothesis C : output_canonical o = true.

Lemma rr_exact : forall op a b r, wf_raw t a -> wf_raw t b -> op <> Divides ->
  p_arith (denote o) t op (RR a b) = Ok r ->
  wf_raw t r /\ canonical r /\ same_value (value r) (exact_opt op (value a) (value b)).
Proof.
  intros op a b r Wa Wb N H. assert (A : wf_args t (RR a b)) by (split; auto).
  split; [exact (proj1 (denote_wf o) t op _ r W A H)|].
  split; [eapply denote_canonical; eauto|].
  apply (denote_exact_opt o t op _ r W S A); auto.
Qed.

Lemma ring_plus_assoc : forall a b c ab bc x y, wf_raw t a -> wf_raw t b -> wf_raw t c ->
  p_arith (denote o) t Plus (RR a b) = Ok ab -> p_arith (denote o) t Plus (RR ab c) = Ok x ->
  p_arith (denote o) t Plus (RR b c) = Ok bc -> p_arith (denote o) t Plus (RR a bc) = Ok y ->
  x = y.
Proof.
  intros a b c ab bc x y Wa Wb Wc H1 H2 H3 H4.
  apply rr_exact in H1 as [W1 [C1 V1]]; try discriminate; auto.
  apply rr_exact in H2 as [W2 [C2 V2]]; try discriminate; auto.
  apply rr_exact in H3 as [W3 [C3 V3]]; try discriminate; auto.
  apply rr_exact in H4 as [W4 [C4 V4]]; try discriminate; auto.
  apply canonical_unique; auto. rewrite V2, V4, V1, V3.
  destruct (value a), (value b), (value c); cbn; auto. ring.
Qed.

Lemma ring_mul_assoc : forall a b c ab bc x y, wf_raw t a -> wf_raw t b -> wf_raw t c ->
  p_arith (denote o) t Multiplies (RR a b) = Ok ab -> p_arith (denote o) t Multiplies (RR ab c) = Ok x ->
  p_arith (denote o) t Multiplies (RR b c) = Ok bc -> p_arith (denote o) t Multiplies (RR a bc) = Ok y ->
  x = y.
Proof.
  intros a b c ab bc x y Wa Wb Wc H1 H2 H3 H4.
  apply rr_exact in H1 as [W1 [C1 V1]]; try discriminate; auto.
  apply rr_exact in H2 as [W2 [C2 V2]]; try discriminate; auto.
  apply rr_exact in H3 as [W3 [C3 V3]]; try discriminate; auto.
  apply rr_exact in H4 as [W4 [C4 V4]]; try discriminate; auto.
  apply canonical_unique; auto. rewrite V2, V4, V1, V3.
  destruct (value a), (value b), (value c); cbn; auto. ring.
Qed.

Lemma ring_distr : forall a b c bc x ab ac y, wf_raw t a -> wf_raw t b -> wf_raw t c ->
  p_arith (denote o) t Plus (RR b c) = Ok bc -> p_arith (denote o) t Multiplies (RR a bc) = Ok x ->
  p_arith (denote o) t Multiplies (RR a b) = Ok ab -> p_arith (denote o) t Multiplies (RR a c) = Ok ac ->
  p_arith (denote o) t Plus (RR ab ac) = Ok y ->
  x = y.
Proof.
  intros a b c bc x ab ac y Wa Wb Wc H1 H2 H3 H4 H5.
  apply rr_exact in H1 as [W1 [C1 V1]]; try discriminate; auto.
  apply rr_exact in H2 as [W2 [C2 V2]]; try discriminate; auto.
  apply rr_exact in H3 as [W3 [C3 V3]]; try discriminate; auto.
  apply rr_exact in H4 as [W4 [C4 V4]]; try discriminate; auto.
  apply rr_exact in H5 as [W5 [C5 V5]]; try discriminate; auto.
  apply canonical_unique; auto. rewrite V2, V5, V1, V3, V4.
  destruct (value a), (value b), (value c); cbn; auto. ring.
Qed.

Lemma ring_sub_add : forall a b d x y, wf_raw t a -> wf_raw t b -> value b <> None ->
  p_arith (denote o) t Minus (RR a b) = Ok d -> p_arith (denote o) t Plus (RR d b) = Ok x ->
  reduce t a normalize_signs_mode = Ok y ->
  x = y.
Proof.
  intros a b d x y Wa Wb Db H1 H2 H3.
  apply rr_exact in H1 as [W1 [C1 V1]]; try discriminate; auto.
  apply rr_exact in H2 as [W2 [C2 V2]]; try discriminate; auto.
  apply reduce_spec in H3 as [W3 [R3 _]]; auto.
  apply canonical_unique; auto; [eapply reduces_canonical; eauto|].
  rewrite V2, V1, (reduces_same_value _ _ _ R3).
  destruct (value a), (value b); cbn; auto; try congruence. ring.
Qed.

Lemma ring_div_mul : forall a b d x y, wf_raw t a -> wf_raw t b -> value b <> None ->
  ~ same_value (value b) (Some 0%Q) ->
  p_arith (denote o) t Divides (RR a b) = Ok d -> p_arith (denote o) t Multiplies (RR d b) = Ok x ->
  reduce t a normalize_signs_mode = Ok y ->
  x = y.
Proof.
  intros a b d x y Wa Wb Db Zb H1 H2 H3.
  assert (A : wf_args t (RR a b)) by (split; auto).
  pose proof (proj1 (denote_wf o) t Divides _ d W A H1) as W1.
  assert (V1 : same_value (value d) (exact_opt Divides (value a) (value b))).
  { apply (denote_exact_opt o t Divides _ d W S A); auto. }
  apply rr_exact in H2 as [W2 [C2 V2]]; try discriminate; auto.
  apply reduce_spec in H3 as [W3 [R3 _]]; auto.
  apply canonical_unique; auto; [eapply reduces_canonical; eauto|].
  rewrite V2, V1, (reduces_same_value _ _ _ R3).
  destruct (value a) as [p|], (value b) as [q|]; cbn [exact_opt exact same_value] in *; auto; try congruence.
  destruct (Qeq_bool q 0) eqn:E; [apply Qeq_bool_iff in E; tauto|]. cbn [exact_opt exact same_value].
  field. intros Z. apply Zb. exact Z.
Qed.

(** a = b * trunc(a / b) + a % b has no model of trunc here; see Math. *)

Lemma ring_neg : forall a n x, wf_raw t a -> value a <> None ->
  p_negate (denote o) t a = Ok n -> p_arith (denote o) t Plus (RR a n) = Ok x ->
  x = mkRaw 0 1.
Proof.
  intros a n x Wa Da H1 H2.
  pose proof (proj2 (denote_wf o) t a n W Wa H1) as Wn.
  apply denote_negate in H1; auto.
  apply rr_exact in H2 as [W2 [C2 V2]]; try discriminate; auto.
  apply canonical_unique; auto; [right; cbn; lia|].
  rewrite V2, H1. destruct (value a); [|congruence]. cbn [opp_opt exact_opt exact].
  rewrite (value_defined (mkRaw 0 1)) by (cbn; lia). cbn [num den same_value].
  rewrite qdiv_1. change (inject_Z 0) with 0%Q. ring.
Qed.
End Ring.

(** ** Strict weak ordering *)

Lemma exact_lt_iff : forall x y, exact_cmp Lt x y = true <-> (x < y)%Q.
Proof.
  intros. cbn. rewrite negb_true_iff. rewrite Qlt_nle.
  destruct (Qle_bool y x) eqn:E.
  - apply Qle_bool_iff in E. intuition congruence.
  - rewrite <- Qle_bool_iff. intuition congruence.
Qed.

Section SWO.
Variables (o : ops) (t : rep).
Hypothesis W : wf_rep t.
Hypothesis S : rsigned t = true.
Hypothesis C : built_on_safe o = true \/ normalises_inputs o = true.

Lemma lt_exact : forall a b v, wf_raw t a -> wf_raw t b ->
  p_cmp (denote o) t Lt (RR a b) = Ok v -> v = exact_cmp_opt Lt (value a) (value b).
Proof.
  intros a b v Wa Wb H. apply (denote_cmp o t Lt (RR a b) v W S); auto.
  - split; auto.
  - right. destruct C; [right; right; now left|now left].
Qed.


Lemma lt_irrefl : forall a v, wf_raw t a -> p_cmp (denote o) t Lt (RR a a) = Ok v -> v = false.
Proof.
  intros a v Wa H. apply lt_exact in H; auto. subst.
  destruct (value a) as [x|]; [|reflexivity]. cbn [exact_cmp_opt].
  apply not_true_iff_false. rewrite exact_lt_iff. apply Qlt_irrefl.
Qed.

Lemma lt_asym : forall a b v, wf_raw t a -> wf_raw t b ->
  p_cmp (denote o) t Lt (RR a b) = Ok true -> p_cmp (denote o) t Lt (RR b a) = Ok v -> v = false.
Proof.
  intros a b v Wa Wb H1 H2. apply lt_exact in H1, H2; auto. subst.
  destruct (value a) as [x|], (value b) as [y|]; try discriminate. cbn [exact_cmp_opt] in *.
  symmetry in H1. apply exact_lt_iff in H1. apply not_true_iff_false. rewrite exact_lt_iff.
  intros H. apply (Qlt_irrefl x). eapply Qlt_trans; eauto.
Qed.

Lemma lt_trans : forall a b c v, wf_raw t a -> wf_raw t b -> wf_raw t c ->
  p_cmp (denote o) t Lt (RR a b) = Ok true -> p_cmp (denote o) t Lt (RR b c) = Ok true ->
  p_cmp (denote o) t Lt (RR a c) = Ok v -> v = true.
Proof.
  intros a b c v Wa Wb Wc H1 H2 H3. apply lt_exact in H1, H2, H3; auto. subst.
  destruct (value a) as [x|], (value b) as [y|], (value c) as [z|]; try discriminate.
  cbn [exact_cmp_opt] in *. symmetry in H1, H2. rewrite exact_lt_iff in *.
  eapply Qlt_trans; eauto.
Qed.

Lemma lt_incomparable : forall a b u v e, wf_raw t a -> wf_raw t b -> value a <> None -> value b <> None ->
  p_cmp (denote o) t Lt (RR a b) = Ok u -> p_cmp (denote o) t Lt (RR b a) = Ok v ->
  p_cmp (denote o) t Eq (RR a b) = Ok e ->
  (u = false /\ v = false <-> e = true).
Proof.
  intros a b u v e Wa Wb Da Db H1 H2 H3. apply lt_exact in H1, H2; auto.
  apply (denote_cmp o t Eq (RR a b) e W S) in H3; [|split; auto|now left].
  cbn [left_value right_value] in H3. subst.
  destruct (value a) as [x|], (value b) as [y|]; try congruence. cbn [exact_cmp_opt exact_cmp].
  rewrite !negb_false_iff, !Qle_bool_iff, Qeq_bool_iff.
  split; [intros []; now apply Qle_antisym|intros ->; split; apply Qle_refl].
Qed.

Lemma incomparable_trans : forall a b c u v, wf_raw t a -> wf_raw t b -> wf_raw t c ->
  value a <> None -> value b <> None -> value c <> None ->
  p_cmp (denote o) t Lt (RR a b) = Ok false -> p_cmp (denote o) t Lt (RR b a) = Ok false ->
  p_cmp (denote o) t Lt (RR b c) = Ok false -> p_cmp (denote o) t Lt (RR c b) = Ok false ->
  p_cmp (denote o) t Lt (RR a c) = Ok u -> p_cmp (denote o) t Lt (RR c a) = Ok v ->
  u = false /\ v = false.
Proof.
  intros a b c u v Wa Wb Wc Da Db Dc H1 H2 H3 H4 H5 H6.
  apply lt_exact in H1, H2, H3, H4, H5, H6; auto. subst u v.
  destruct (value a) as [x|], (value b) as [y|], (value c) as [z|]; try congruence.
  cbn [exact_cmp_opt exact_cmp] in *. symmetry in H1, H2, H3, H4.
  rewrite negb_false_iff, Qle_bool_iff in *.
  rewrite !negb_false_iff, !Qle_bool_iff. split; eapply Qle_trans; eauto.
Qed.
End SWO.

(** ** Raw queries *)

Lemma Qdiv_pos_iff : forall n d, d <> 0 ->
  (0 < inject_Z n / inject_Z d)%Q <-> (0 < n /\ 0 < d) \/ (n < 0 /\ d < 0).
Proof.
  intros n d H. assert (E : (0 == inject_Z 0 / inject_Z 1)%Q) by reflexivity.
  rewrite E, qdiv_lt by lia. nia.
Qed.
Lemma Qdiv_nonneg_iff : forall n d, d <> 0 ->
  (0 <= inject_Z n / inject_Z d)%Q <-> (0 <= n /\ 0 < d) \/ (n <= 0 /\ d < 0).
Proof.
  intros n d H. assert (E : (0 == inject_Z 0 / inject_Z 1)%Q) by reflexivity.
  rewrite E, qdiv_le by lia. nia.
Qed.
Lemma Qdiv_neg_iff : forall n d, d <> 0 ->
  (inject_Z n / inject_Z d < 0)%Q <-> (0 < n /\ d < 0) \/ (n < 0 /\ 0 < d).
Proof.
  intros n d H. assert (E : (0 == inject_Z 0 / inject_Z 1)%Q) by reflexivity.
  rewrite E, qdiv_lt by lia. nia.
Qed.
Lemma Qdiv_nonpos_iff : forall n d, d <> 0 ->
  (inject_Z n / inject_Z d <= 0)%Q <-> (0 <= n /\ d < 0) \/ (n <= 0 /\ 0 < d).
Proof.
  intros n d H. assert (E : (0 == inject_Z 0 / inject_Z 1)%Q) by reflexivity.
  rewrite E, qdiv_le by lia. nia.
Qed.
Lemma Qdiv_zero_iff : forall n d, d <> 0 -> (inject_Z n / inject_Z d == 0)%Q <-> n = 0.
Proof.
  intros n d H. assert (E : (0 == inject_Z 0 / inject_Z 1)%Q) by reflexivity.
  rewrite E, qdiv_eq by lia. lia.
Qed.

Lemma value_is_div : forall P v, value_is P v <->
  den v <> 0 /\ P (inject_Z (num v) / inject_Z (den v))%Q.
Proof.
  intros P v. unfold value_is, value. destruct (Z.eqb_spec (den v) 0); tauto.
Qed.

Ltac bools := repeat rewrite ?orb_true_iff, ?andb_true_iff, ?Z.gtb_lt, ?Z.geb_le, ?Z.ltb_lt, ?Z.leb_le, ?Z.eqb_eq, ?negb_true_iff, ?Z.eqb_neq.

Lemma is_positive_spec : forall v, is_positive v = true <-> value_is (fun q => 0 < q)%Q v.
Proof.
  intros v. rewrite value_is_div. unfold is_positive. bools. split.
  - intros H. assert (D : den v <> 0) by lia. split; auto. rewrite Qdiv_pos_iff; lia.
  - intros [D H]. rewrite Qdiv_pos_iff in H; lia.
Qed.
Lemma is_non_negative_spec : forall v, is_non_negative v = true <-> value_is (fun q => 0 <= q)%Q v.
Proof.
  intros v. rewrite value_is_div. unfold is_non_negative. bools. split.
  - intros H. assert (D : den v <> 0) by lia. split; auto. rewrite Qdiv_nonneg_iff; lia.
  - intros [D H]. rewrite Qdiv_nonneg_iff in H; lia.
Qed.
Lemma is_negative_spec : forall v, is_negative v = true <-> value_is (fun q => q < 0)%Q v.
Proof.
  intros v. rewrite value_is_div. unfold is_negative. bools. split.
  - intros H. assert (D : den v <> 0) by lia. split; auto. rewrite Qdiv_neg_iff; lia.
  - intros [D H]. rewrite Qdiv_neg_iff in H; lia.
Qed.
Lemma is_non_positive_spec : forall v, is_non_positive v = true <-> value_is (fun q => q <= 0)%Q v.
Proof.
  intros v. rewrite value_is_div. unfold is_non_positive. bools. split.
  - intros H. assert (D : den v <> 0) by lia. split; auto. rewrite Qdiv_nonpos_iff; lia.
  - intros [D H]. rewrite Qdiv_nonpos_iff in H; lia.
Qed.
Lemma is_zero_spec : forall v, is_zero v = true <-> value_is (fun q => q == 0)%Q v.
Proof.
  intros v. rewrite value_is_div. unfold is_zero, is_defined. bools. split.
  - intros [D H]. split; auto. rewrite Qdiv_zero_iff; auto.
  - intros [D H]. rewrite Qdiv_zero_iff in H; auto.
Qed.
Lemma is_defined_spec : forall v, is_defined v = true <-> value v <> None.
Proof. intros v. rewrite is_defined_iff, value_none_iff. tauto. Qed.
Lemma is_undefined_spec : forall v, is_undefined v = true <-> value v = None.
Proof. intros v. now rewrite is_undefined_iff, value_none_iff. Qed.

(** ** is_integer, is_unit_fraction, is_proper *)

Lemma rem_zero_divide : forall a b, b <> 0 -> Z.rem a b = 0 <-> exists k, a = k * b.
Proof.
  intros a b H. rewrite Z.rem_divide by auto. reflexivity.
Qed.

Lemma m_rem_value : forall t a b r, m_rem t a b = Ok r -> b <> 0 /\ r = Z.rem a b.
Proof.
  intros t a b r H. unfold m_rem in H. destruct (Z.eqb_spec b 0); [discriminate|].
  inv_bind H. inversion H. auto.
Qed.

Lemma is_integer_spec : forall t v b, is_integer t v = Ok b ->
  (b = true <-> value_is (fun q => exists k, q == inject_Z k)%Q v).
Proof.
  intros t v b H. rewrite value_is_div. unfold is_integer in H.
  destruct (is_defined v) eqn:D.
  - apply is_defined_iff in D. inv_bind H. inversion H; subst.
    apply m_rem_value in E as [_ ->].
    rewrite Z.eqb_eq, rem_zero_divide by auto. split.
    + intros [k K]. split; auto. exists k. rewrite <- (qdiv_1 k), qdiv_eq by (auto; lia). lia.
    + intros [_ [k K]]. exists k. rewrite <- (qdiv_1 k), qdiv_eq in K by (auto; lia). lia.
  - inversion H; subst. apply not_true_iff_false in D. rewrite is_defined_iff in D.
    split; [discriminate|tauto].
Qed.

Lemma is_unit_fraction_spec : forall t v b, is_unit_fraction t v = Ok b ->
  (b = true <-> value_is (fun q => exists k, k <> 0%Z /\ q == 1 / inject_Z k)%Q v).
Proof.
  intros t v b H. rewrite value_is_div. unfold is_unit_fraction in H.
  destruct (is_defined v) eqn:D; cbn [andb] in H.
  - apply is_defined_iff in D. destruct (Z.eqb_spec (num v) 0) as [N|N]; cbn [negb] in H.
    + inversion H; subst. split; [discriminate|]. intros [_ [k [K E]]]. exfalso.
      change 1%Q with (inject_Z 1) in E. rewrite qdiv_eq in E by auto. nia.
    + inv_bind H. inversion H; subst. apply m_rem_value in E as [_ ->].
      rewrite Z.eqb_eq, rem_zero_divide by auto. change 1%Q with (inject_Z 1). split.
      * intros [k K]. split; auto. exists k. assert (k <> 0) by nia. split; auto.
        rewrite qdiv_eq by auto. lia.
      * intros [_ [k [K E]]]. exists k. rewrite qdiv_eq in E by auto. lia.
  - inversion H; subst. apply not_true_iff_false in D. rewrite is_defined_iff in D.
    split; [discriminate|tauto].
Qed.

Lemma mu_abs_signed : forall t v r, rsigned t = true -> mu_abs t v = Ok r -> r = Z.abs v.
Proof.
  intros t v r S H. unfold mu_abs in H. destruct (Z.geb_spec v 0).
  - inversion H. lia.
  - signed_facts S. lia.
Qed.

Lemma Qabs_div : forall n d, d <> 0 ->
  (Qabs (inject_Z n / inject_Z d) == inject_Z (Z.abs n) / inject_Z (Z.abs d))%Q.
Proof.
  intros n d H.
  assert (E : forall x, (0 <= x -> Qabs x == x)%Q /\ (x <= 0 -> Qabs x == - x)%Q).
  { intros x. split; intros; [now apply Qabs_pos|now apply Qabs_neg]. }
  destruct (E (inject_Z n / inject_Z d)%Q) as [E1 E2].
  assert (NZ := iz_nz _ H).
  destruct (Z_le_gt_dec 0 n), (Z_lt_le_dec 0 d).
  - rewrite !Z.abs_eq by lia. apply E1. rewrite Qdiv_nonneg_iff; lia.
  - rewrite (Z.abs_eq n), (Z.abs_neq d), inject_Z_opp by lia. rewrite E2 by (rewrite Qdiv_nonpos_iff; lia).
    field; auto.
  - rewrite (Z.abs_neq n), (Z.abs_eq d), inject_Z_opp by lia. rewrite E2 by (rewrite Qdiv_nonpos_iff; lia).
    field; auto.
  - rewrite (Z.abs_neq n), (Z.abs_neq d), !inject_Z_opp by lia. rewrite E1 by (rewrite Qdiv_nonneg_iff; lia).
    field; auto.
Qed.

Lemma is_proper_spec : forall t v b, rsigned t = true -> value v <> None -> is_proper t v = Ok b ->
  (b = true <-> value_is (fun q => Qabs q < 1)%Q v).
Proof.
  intros t v b S D H. rewrite value_is_div. rewrite value_none_iff in D.
  unfold is_proper in H. inv_bind H. inversion H; subst.
  apply mu_abs_signed in E, E0; auto. subst. rewrite Z.ltb_lt.
  assert (O : (1 == inject_Z 1 / inject_Z 1)%Q) by reflexivity.
  rewrite Qabs_div, O, qdiv_lt by lia. split; [intros; split; auto|intros [_ ?]]; nia.
Qed.

Lemma is_proper_unsigned_spec : forall t v b, wf_rep t -> rsigned t = false -> wf_raw t v ->
  value v <> None -> is_proper t v = Ok b ->
  (b = true <-> value_is (fun q => Qabs q < 1)%Q v).
Proof.
  intros t v b W S Wv D H. rewrite value_is_div. rewrite value_none_iff in D.
  destruct (wf_raw_nonneg t v Wv S) as [P1 P2].
  unfold is_proper, mu_abs in H.
  rewrite (proj2 (Z.geb_le (num v) 0)), (proj2 (Z.geb_le (den v) 0)) in H by auto.
  cbn [bind] in H. inversion H; subst. rewrite Z.ltb_lt.
  assert (O : (1 == inject_Z 1 / inject_Z 1)%Q) by reflexivity.
  rewrite Qabs_div, O, qdiv_lt by lia. split; [intros; split; auto|intros [_ ?]]; nia.
Qed.

(** ** are_identical *)

Lemma are_identical_iff : forall a b, are_identical a b = true <-> a = b.
Proof.
  intros [n d] [n' d']. unfold are_identical; cbn [num den]. bools.
  split; [intros [-> ->]; auto|]. intros H; inversion H; auto.
Qed.

(** ** reciprocal *)

Lemma reciprocal_involutive : forall v, reciprocal (reciprocal v) = v.
Proof. intros []; reflexivity. Qed.

Lemma reciprocal_value : forall v q, value v = Some q -> ~ (q == 0)%Q ->
  same_value (value (reciprocal v)) (Some (/ q)%Q).
Proof.
  intros v q H N. unfold value in *. destruct (Z.eqb_spec (den v) 0) as [|D]; [discriminate|].
  inversion H; subst. cbn [reciprocal num den].
  destruct (Z.eqb_spec (num v) 0) as [E|E].
  - exfalso. apply N. now apply Qdiv_zero_iff.
  - cbn [same_value]. pose proof (iz_nz _ D). pose proof (iz_nz _ E). field; auto.
Qed.

Lemma reciprocal_zero : forall v, value_is (fun q => q == 0)%Q v -> value (reciprocal v) = None.
Proof.
  intros v H. rewrite value_is_div in H. destruct H as [D H].
  rewrite Qdiv_zero_iff in H by auto. apply value_none_iff. exact H.
Qed.

(** ** normalize_signs *)

Lemma normalize_signs_spec : forall t v r, wf_rep t -> rsigned t = true -> wf_raw t v ->
  normalize_signs t v = Ok r ->
  wf_raw t r /\ same_value (value r) (value v) /\ 0 <= den r
  /\ Z.abs (num r) = Z.abs (num v) /\ Z.abs (den r) = Z.abs (den v).
Proof.
  intros t v r W S Wv H. unfold normalize_signs in H. destruct (Z.gtb_spec (den v) 0).
  - inversion H; subst. repeat split; auto; try apply Wv; [reflexivity|lia].
  - inv_all. signed_facts S. subst. cbn [num den].
    split; [split; auto|]. split; [|cbn [num den]; lia].
    unfold value; cbn [num den]. destruct (Z.eqb_spec (- den v) 0), (Z.eqb_spec (den v) 0); try lia; [exact I|].
    cbn [same_value]. rewrite !inject_Z_opp. pose proof (iz_nz _ n0). field; auto.
Qed.

Lemma normalize_signs_ok : forall t v, wf_rep t -> rsigned t = true ->
  Z.abs (num v) <= rmax t -> Z.abs (den v) <= rmax t -> exists r, normalize_signs t v = Ok r.
Proof.
  intros t v W S Hn Hd. unfold normalize_signs. destruct (Z.gtb_spec (den v) 0); [eauto|].
  unfold m_neg. rewrite !arith_in; auto; try (apply in_rep_abs; auto; [lia|congruence]).
  cbn [bind]. eauto.
Qed.

(** ** reduce *)

Lemma reduce_idempotent : forall t v m r, wf_rep t -> wf_raw t v ->
  reduce t v m = Ok r -> reduce t r m = Ok r.
Proof.
  intros t v m r W Wv H. apply reduce_spec in H as [Wr [R B]]; auto.
  assert (Rr : reduces_to m r r).
  { destruct R as [[D ->]|[D [g [G [Hn [Hd [Hg [P1 P2]]]]]]]]; [left; auto|].
    right. assert (den r <> 0) by nia. split; auto. exists 1. repeat split; auto; lia. }
  assert (E : exists r', reduce t r m = Ok r').
  { destruct (Z.eq_dec (den v) 0) as [D|D].
    - rewrite (reduce_undefined t r m W); eauto. now apply (reduces_den_zero _ _ _ R).
    - pose proof (reduces_bound _ _ _ R). specialize (B D). apply reduce_total; auto; lia. }
  destruct E as [r' E]. rewrite E. f_equal.
  apply reduce_spec in E as [W' [R' _]]; auto.
  destruct R' as [[D' ->]|[D' [g' [G' [Hn' [Hd' [Hg' [P1' P2']]]]]]]], Rr as [[D ->]|[D [g [G [Hn [Hd [Hg [P1 P2]]]]]]]]; auto; try contradiction.
  assert (U : g' = 1 \/ g' = -1).
  { assert (X : (g' | 1)).
    { rewrite <- Hg. apply Z.gcd_greatest; [exists (num r')|exists (den r')]; lia. }
    apply Z.divide_1_r in X. exact X. }
  destruct U as [-> | ->]; [destruct r as [n1 d1], r' as [n2 d2]; cbn [num den] in *; f_equal; lia|].
  exfalso. destruct m; [specialize (P1 eq_refl); specialize (P1' eq_refl); lia|specialize (P2' eq_refl); lia].
Qed.

Lemma reduce_equal_iff : forall t a b ra rb, wf_rep t -> wf_raw t a -> wf_raw t b ->
  reduce t a normalize_signs_mode = Ok ra -> reduce t b normalize_signs_mode = Ok rb ->
  (same_value (value a) (value b) <-> ra = rb).
Proof.
  intros t a b ra rb W Wa Wb Ha Hb.
  apply reduce_spec in Ha as [_ [Ra _]], Hb as [_ [Rb _]]; auto.
  rewrite <- (reduces_same_value _ _ _ Ra), <- (reduces_same_value _ _ _ Rb).
  split; [|intros ->; reflexivity].
  apply canonical_unique; eapply reduces_canonical; eauto.
Qed.

(** ** is_reduced *)

Lemma is_reduced_ignore_spec : forall t v b, is_reduced_ignore_signs t v = Ok b ->
  (b = true <-> den v <> 0 /\ Z.gcd (num v) (den v) = 1).
Proof.
  intros t v b H. unfold is_reduced_ignore_signs in H. destruct (is_defined v) eqn:D.
  - apply is_defined_iff in D. inv_all. apply std_gcd_ok in E as [-> _]. rewrite Z.eqb_eq. tauto.
  - inversion H; subst. apply not_true_iff_false in D. rewrite is_defined_iff in D.
    split; [discriminate|tauto].
Qed.

Lemma is_reduced_spec : forall t v b, is_reduced t v = Ok b ->
  (b = true <-> den v <> 0 /\ Z.gcd (num v) (den v) = 1 /\ (0 < num v \/ 0 < den v)).
Proof.
  intros t v b H. unfold is_reduced in H.
  destruct ((num v >? 0) || (den v >? 0)) eqn:E.
  - apply is_reduced_ignore_spec in H. rewrite H.
    rewrite orb_true_iff, !Z.gtb_lt in E. tauto.
  - inversion H; subst. apply not_true_iff_false in E.
    rewrite orb_true_iff, !Z.gtb_lt in E. split; [discriminate|tauto].
Qed.

Lemma canonical_reduces : forall v, den v <> 0 -> canonical v -> reduces_to normalize_signs_mode v v.
Proof.
  intros v D [[_ C]|[P G]]; [contradiction|]. right. split; auto. exists 1. repeat split; auto; lia.
Qed.

Lemma reduces_to_unique : forall m v r r', reduces_to m v r -> reduces_to m v r' -> r = r'.
Proof.
  intros m v r r' [[D ->]|[D [g [G [Hn [Hd [Hg [P1 P2]]]]]]]] [[D' ->]|[D' [g' [G' [Hn' [Hd' [Hg' [P1' P2']]]]]]]];
    auto; try contradiction.
  assert (E : num r * den r' = num r' * den r).
  { apply (Z.mul_reg_l _ _ (g * g')); [nia|].
    transitivity (num v * den v); [rewrite Hn at 1; rewrite Hd'; ring|rewrite Hn' at 1; rewrite Hd; ring]. }
  assert (X1 : (den r | den r')).
  { apply Z.gauss with (num r); [exists (num r'); lia|]. now rewrite Z.gcd_comm. }
  assert (X2 : (den r' | den r)).
  { apply Z.gauss with (num r'); [exists (num r); lia|]. now rewrite Z.gcd_comm. }
  assert (N : den r <> 0) by nia. assert (N' : den r' <> 0) by nia.
  destruct (Z.divide_antisym _ _ X1 X2) as [X|X].
  - destruct r as [n d], r' as [n' d']; cbn [num den] in *. subst d'. f_equal. nia.
  - exfalso. destruct m.
    + specialize (P1 eq_refl). specialize (P1' eq_refl). lia.
    + specialize (P2 eq_refl). specialize (P2' eq_refl). nia.
Qed.

(** is_reduced(v), for a positive denominator, says that reduce leaves v alone. *)
Lemma is_reduced_reduce : forall t v b r, wf_rep t -> wf_raw t v -> 0 < den v ->
  is_reduced t v = Ok b -> reduce t v normalize_signs_mode = Ok r -> (b = true <-> r = v).
Proof.
  intros t v b r W Wv P H R. apply is_reduced_spec in H. rewrite H. clear H.
  apply reduce_spec in R as [_ [R _]]; auto. split.
  - intros [D [G _]]. eapply reduces_to_unique; eauto.
    apply canonical_reduces; auto. right; auto.
  - intros ->. apply reduces_canonical in R as [[_ R]|[_ R]]; [lia|]. repeat split; auto; lia.
Qed.

Lemma is_reduced_ignore_reduce : forall t v b r, wf_rep t -> wf_raw t v ->
  is_reduced_ignore_signs t v = Ok b -> reduce t v ignore_signs_mode = Ok r ->
  (b = true <-> den v <> 0 /\ r = v).
Proof.
  intros t v b r W Wv H R. apply is_reduced_ignore_spec in H. rewrite H. clear H.
  apply reduce_spec in R as [_ [R _]]; auto. split.
  - intros [D G]. split; auto. eapply reduces_to_unique; eauto.
    right. split; auto. exists 1. repeat split; auto; intros; try discriminate; lia.
  - intros [D ->]. destruct R as [[D' _]|[_ [g [_ [_ [_ [G _]]]]]]]; [contradiction|]. auto.
Qed.
