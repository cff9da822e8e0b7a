(** Redenomination and powers. *)

From Coq Require Import ZArith QArith Qpower Lia Lqa Bool.
From Verif Require Import Machine Raw Ops Spec Fraction Fraction_spec Fmath Fmath_spec.
From Verif Require Import Machine_proofs Value_proofs Ops_proofs Total_proofs Cmp_proofs Order_proofs Algebra_proofs Fraction_proofs Fmath_proofs.
Open Scope Z_scope.

Lemma mul_int_den : forall o t v z r, wf_rep t -> rsigned t = true -> wf_raw t v -> in_rep t z = true ->
  0 < den v -> p_arith (denote o) t Multiplies (RI v z) = Ok r -> 0 < den r.
Proof.
  induction o as [| |o IH m|o IH m]; intros t v z r W S Wv Wz P H; cbn [denote] in H.
  - cbn in H. unfold safe_multiplies_ri in H. inv_all. auto.
  - cbn in H. unfold fast_multiplies_ri in H. inv_all. auto.
  - rewrite ri_arith_eq in H. cbn [reduce_args] in H. inv_bind H. inv_bind E. inversion E; subst.
    apply reduce_spec in E0 as [Wr [R _]]; auto. apply IH in H; auto.
    destruct m; [apply (reduces_den_pos _ _ R); lia|apply reduces_den_sign in R; lia].
  - rewrite ro_arith_eq in H. inv_bind H. pose proof (arith_wf _ _ _ _ _ W (conj Wv Wz : wf_args t (RI v z)) E) as Wa.
    apply IH in E; auto. apply reduce_spec in H as [Wr [R _]]; auto.
    destruct m; [apply (reduces_den_pos _ _ R); lia|apply reduces_den_sign in R; lia].
Qed.

(** The product of a fraction with an integer, as redenomination uses it. *)
Lemma mul_int_value : forall o t v z x, wf_rep t -> rsigned t = true -> wf_raw t v -> in_rep t z = true ->
  f_arith (denote o) t t Multiplies (RI v z) = Ok x ->
  wf_raw t x /\ forall y, value x = Some y -> exists q, value v = Some q /\ (y == q * inject_Z z)%Q.
Proof.
  intros o t v z x W S Wv Wz H. rewrite f_arith_self in H.
  assert (A : wf_args t (RI v z)) by (split; auto). split; [eapply arith_wf; eauto|].
  intros y Y. pose proof (denote_exact_opt o t Multiplies (RI v z) x W S A ltac:(left; discriminate) H) as X.
  rewrite Y in X. cbn [left_value right_value] in X. destruct (value v) as [q|]; [|contradiction].
  cbn in X. eauto.
Qed.

Lemma value_over : forall n d, d <> 0 -> value (mkRaw n d) = Some (inject_Z n / inject_Z d)%Q.
Proof. intros n d H. unfold value. cbn [den num]. now rewrite (proj2 (Z.eqb_neq _ _) H). Qed.

Lemma over_abs : forall n d, d < 0 -> (inject_Z n / inject_Z d == inject_Z (- n) / inject_Z (Z.abs d))%Q.
Proof.
  intros n d H. rewrite Z.abs_neq by lia. rewrite !inject_Z_opp.
  field. intros K. unfold Qeq in K. cbn in K. lia.
Qed.

Lemma is_trunc_opp : forall k q, is_trunc k q -> is_trunc (- k) (- q).
Proof.
  intros k q [H1 H2]. unfold is_trunc.
  replace (- k + 1) with (- (k - 1)) by lia. replace (- k - 1) with (- (k + 1)) by lia.
  rewrite !inject_Z_opp. split; intros H; [assert (q <= 0)%Q by lra|assert (0 <= q)%Q by lra]; intuition lra.
Qed.

Lemma is_trunc_eq : forall k q q', (q == q')%Q -> is_trunc k q -> is_trunc k q'.
Proof. intros k q q' E. unfold is_trunc. rewrite E. auto. Qed.
Lemma is_floor_eq : forall k q q', (q == q')%Q -> is_floor k q -> is_floor k q'.
Proof. intros k q q' E. unfold is_floor. rewrite E. auto. Qed.
Lemma is_ceil_eq : forall k q q', (q == q')%Q -> is_ceil k q -> is_ceil k q'.
Proof. intros k q q' E. unfold is_ceil. rewrite E. auto. Qed.
Lemma is_round_eq : forall k q q', (q == q')%Q -> is_round k q -> is_round k q'.
Proof. intros k q q' E. unfold is_round. rewrite E. auto. Qed.
Lemma tiny_eq : forall q q', (q == q')%Q -> tiny_negative q -> tiny_negative q'.
Proof. intros q q' E. unfold tiny_negative. rewrite E. auto. Qed.
Lemma half_eq : forall q q', (q == q')%Q -> below_minus_half q -> below_minus_half q'.
Proof. intros q q' E. unfold below_minus_half. rewrite E. auto. Qed.

Lemma f_trunc_redenominate_spec : forall o t v d r, wf_rep t -> rsigned t = true -> wf_raw t v ->
  in_rep t d = true -> d <> 0 -> f_trunc_redenominate (denote o) t v d = Ok r ->
  exists q v' k, value v = Some q /\ value r = Some v' /\ den r = d /\
    is_over v' k (Z.abs d) /\ is_trunc k (q * inject_Z (Z.abs d)).
Proof.
  intros o t v d r W S Wv Wd D H. unfold f_trunc_redenominate in H. inv_bind H. inversion H; subst r; clear H.
  apply mul_int_value in E as [Wx X]; auto. apply f_trunc_spec in E0 as [y [Y T]]; auto.
  destruct (X y Y) as [q [V Q]]. cbn [den]. apply (is_trunc_eq _ _ _ Q) in T.
  exists q, (inject_Z a0 / inject_Z d)%Q, (a0 * Z.sgn d).
  rewrite (value_over a0 d D). split; auto. split; auto. split; auto. unfold is_over.
  destruct (Z.lt_total d 0) as [N|[N|N]]; [|lia|].
  - rewrite (Z.sgn_neg d N). replace (a0 * -1) with (- a0) by lia. split; [now apply over_abs|].
    apply is_trunc_opp in T. eapply is_trunc_eq; [|exact T]. rewrite Z.abs_neq by lia. rewrite inject_Z_opp. ring.
  - rewrite (Z.sgn_pos d N), Z.mul_1_r, Z.abs_eq by lia. split; [reflexivity|auto].
Qed.

Lemma f_floor_redenominate_spec : forall o t v d r, wf_rep t -> rsigned t = true -> wf_raw t v ->
  in_rep t d = true -> d <> 0 -> f_floor_redenominate (denote o) t v d = Ok r ->
  exists q v' k, value v = Some q /\ value r = Some v' /\ den r = d /\
    is_over v' k (Z.abs d) /\
    (tiny_negative (q * inject_Z (Z.abs d)) -> k = 0) /\
    (~ tiny_negative (q * inject_Z (Z.abs d)) -> is_floor k (q * inject_Z (Z.abs d))).
Proof.
  intros o t v d r W S Wv Wd D H. unfold f_floor_redenominate in H. rewrite Z.geb_leb in H.
  destruct (Z.leb_spec 0 d) as [P|P].
  - inv_bind H. inversion H; subst r; clear H.
    apply mul_int_value in E as [Wx X]; auto. apply f_floor_spec in E0 as [y [Y [T1 T2]]]; auto.
    destruct (X y Y) as [q [V Q]]. cbn [den].
    exists q, (inject_Z a0 / inject_Z d)%Q, a0.
    rewrite (value_over a0 d D), Z.abs_eq by lia.
    split; auto. split; auto. split; auto. split; [unfold is_over; reflexivity|].
    assert (Q' := Qeq_sym _ _ Q). split.
    + intros K. apply T1. now apply (tiny_eq _ _ Q').
    + intros K. apply (is_floor_eq _ _ _ Q). apply T2. intros K'. now apply K, (tiny_eq _ _ Q).
  - inv_bind H. inversion H; subst r; clear H.
    unfold m_neg in E, E2. apply arith_signed in E as [-> Wm]; auto. apply arith_signed in E2 as [-> _]; auto.
    apply mul_int_value in E0 as [Wx X]; auto. apply f_floor_spec in E1 as [y [Y [T1 T2]]]; auto.
    destruct (X y Y) as [q [V Q]]. cbn [den].
    exists q, (inject_Z (- a1) / inject_Z d)%Q, a1.
    rewrite (value_over (- a1) d D).
    split; auto. split; auto. split; auto.
    split; [unfold is_over; rewrite (over_abs (- a1) d) by lia; rewrite Z.opp_involutive; reflexivity|].
    rewrite Z.abs_neq by lia. assert (Q' := Qeq_sym _ _ Q). split.
    + intros K. apply T1. now apply (tiny_eq _ _ Q').
    + intros K. apply (is_floor_eq _ _ _ Q). apply T2. intros K'. now apply K, (tiny_eq _ _ Q).
Qed.

Lemma f_ceil_redenominate_spec : forall o t v d r, wf_rep t -> rsigned t = true -> wf_raw t v ->
  in_rep t d = true -> d <> 0 -> f_ceil_redenominate (denote o) t v d = Ok r ->
  exists q v' k, value v = Some q /\ value r = Some v' /\ den r = d /\
    is_over v' k (Z.abs d) /\
    (tiny_negative (q * inject_Z (Z.abs d)) -> k = 1) /\
    (~ tiny_negative (q * inject_Z (Z.abs d)) -> is_ceil k (q * inject_Z (Z.abs d))).
Proof.
  intros o t v d r W S Wv Wd D H. unfold f_ceil_redenominate in H. rewrite Z.geb_leb in H.
  destruct (Z.leb_spec 0 d) as [P|P].
  - inv_bind H. inversion H; subst r; clear H.
    apply mul_int_value in E as [Wx X]; auto. apply f_ceil_spec in E0 as [y [Y [T1 T2]]]; auto.
    destruct (X y Y) as [q [V Q]]. cbn [den].
    exists q, (inject_Z a0 / inject_Z d)%Q, a0.
    rewrite (value_over a0 d D), Z.abs_eq by lia.
    split; auto. split; auto. split; auto. split; [unfold is_over; reflexivity|].
    assert (Q' := Qeq_sym _ _ Q). split.
    + intros K. apply T1. now apply (tiny_eq _ _ Q').
    + intros K. apply (is_ceil_eq _ _ _ Q). apply T2. intros K'. now apply K, (tiny_eq _ _ Q).
  - inv_bind H. inversion H; subst r; clear H.
    unfold m_neg in E, E2. apply arith_signed in E as [-> Wm]; auto. apply arith_signed in E2 as [-> _]; auto.
    apply mul_int_value in E0 as [Wx X]; auto. apply f_ceil_spec in E1 as [y [Y [T1 T2]]]; auto.
    destruct (X y Y) as [q [V Q]]. cbn [den].
    exists q, (inject_Z (- a1) / inject_Z d)%Q, a1.
    rewrite (value_over (- a1) d D).
    split; auto. split; auto. split; auto.
    split; [unfold is_over; rewrite (over_abs (- a1) d) by lia; rewrite Z.opp_involutive; reflexivity|].
    rewrite Z.abs_neq by lia. assert (Q' := Qeq_sym _ _ Q). split.
    + intros K. apply T1. now apply (tiny_eq _ _ Q').
    + intros K. apply (is_ceil_eq _ _ _ Q). apply T2. intros K'. now apply K, (tiny_eq _ _ Q).
Qed.

Lemma f_round_redenominate_spec : forall o t v d r, wf_rep t -> rsigned t = true -> wf_raw t v ->
  built_on_safe o = true \/ normalises_inputs o = true \/ 0 < den v ->
  in_rep t d = true -> d <> 0 -> f_round_redenominate (denote o) t v d = Ok r ->
  exists q v' k, value v = Some q /\ value r = Some v' /\ den r = d /\
    is_over v' k d /\
    (below_minus_half (q * inject_Z d) -> k = 0) /\
    (~ below_minus_half (q * inject_Z d) -> is_round k (q * inject_Z d)).
Proof.
  intros o t v d r W S Wv C Wd D H. unfold f_round_redenominate in H. inv_bind H. inversion H; subst r; clear H.
  assert (C' : built_on_safe o = true \/ normalises_inputs o = true \/ 0 < den a).
  { destruct C as [C|[C|C]]; auto. right. right. rewrite f_arith_self in E. now apply (mul_int_den o t v d a). }
  apply mul_int_value in E as [Wx X]; auto. apply f_round_spec in E0 as [y [Y [T1 T2]]]; auto.
  destruct (X y Y) as [q [V Q]]. cbn [den].
  exists q, (inject_Z a0 / inject_Z d)%Q, a0.
  rewrite (value_over a0 d D).
  split; auto. split; auto. split; auto. split; [unfold is_over; reflexivity|].
  assert (Q' := Qeq_sym _ _ Q). split.
  - intros K. apply T1. now apply (half_eq _ _ Q').
  - intros K. apply (is_round_eq _ _ _ Q). apply T2. intros K'. now apply K, (half_eq _ _ Q).
Qed.

(** ** Powers *)

Lemma pow_abs_mono : forall b e e', 0 <= e' <= e -> b <> 0 -> Z.abs (b ^ e') <= Z.abs (b ^ e).
Proof.
  intros b e e' H B. rewrite !Z.abs_pow. apply Z.pow_le_mono_r; lia.
Qed.

Lemma rem2_odd : forall e, 0 <= e -> Z.rem e 2 = (if Z.odd e then 1 else 0).
Proof. intros e H. rewrite Z.rem_mod_nonneg by lia. rewrite Zmod_odd. reflexivity. Qed.

Lemma in_rep_abs : forall t a b, rsigned t = true -> in_rep t b = true ->
  2 * Z.abs a <= Z.abs b \/ (a = b) \/ a = 1 \/ a = 0 -> wf_rep t -> in_rep t a = true.
Proof.
  intros t a b S B H W. rewrite in_rep_iff in *. rewrite (rmin_rmax_signed t S) in *.
  pose proof (rmax_big t W). lia.
Qed.

Lemma pow_not_in : forall t b e e', wf_rep t -> rsigned t = true -> 0 <= e' <= e ->
  in_rep t (b ^ e') = false -> in_rep t (b ^ e) = false.
Proof.
  intros t b e e' W S H F. destruct (in_rep t (b ^ e)) eqn:G; auto. rewrite <- F. symmetry.
  apply (in_rep_abs t _ (b ^ e) S G); auto.
  destruct (Z.eq_dec e e') as [->|N]; auto.
  destruct (Z.eq_dec b 0) as [->|B0].
  { destruct (Z.eq_dec e' 0) as [->|]; [cbn; auto|rewrite (Z.pow_0_l e') by lia; auto]. }
  assert (B : b = 1 \/ b = -1 \/ 2 <= Z.abs b) by lia.
  destruct B as [->|[->|B]].
  - rewrite !Z.pow_1_l by lia. auto.
  - exfalso. rewrite in_rep_iff in G. assert (in_rep t ((-1) ^ e') = true); [|congruence].
    rewrite in_rep_iff, (rmin_rmax_signed t S). pose proof (rmax_big t W).
    assert (Z.abs ((-1) ^ e') = 1) by (rewrite Z.abs_pow; cbn [Z.abs]; apply Z.pow_1_l; lia). lia.
  - left. replace e with (e' + (e - e')) by lia. rewrite Z.pow_add_r by lia. rewrite Z.abs_mul.
    assert (2 <= Z.abs (b ^ (e - e'))).
    { rewrite Z.abs_pow. transitivity (Z.abs b ^ 1); [lia|]. apply Z.pow_le_mono_r; lia. }
    pose proof (Z.abs_nonneg (b ^ e')). nia.
Qed.

Lemma arith_mul : forall t x y z, wf_rep t -> z = x * y ->
  (rsigned t = true -> in_rep t x = false -> in_rep t z = false) ->
  (rsigned t = true -> in_rep t y = false -> in_rep t z = false) ->
  (do a <- arith t x; do b <- arith t y; m_mul t a b) = arith t z.
Proof.
  intros t x y z W -> X Y. unfold m_mul. unfold arith. destruct (rsigned t) eqn:S.
  - destruct (in_rep t x); cbn [bind]; [|now rewrite (X eq_refl eq_refl)].
    destruct (in_rep t y); cbn [bind]; [|now rewrite (Y eq_refl eq_refl)]. reflexivity.
  - cbn [bind]. unfold wrap. rewrite S. f_equal.
    rewrite <- Z.mul_mod; [reflexivity|]. unfold wf_rep in W. pose proof (Z.pow_pos_nonneg 2 (rbits t)). lia.
Qed.

(** The recursion computes the power in [t]: exactly when it fits, by wrapping
    for unsigned types, and overflowing otherwise. *)
Lemma mu_pow_fuel_spec : forall t b, wf_rep t -> in_rep t b = true ->
  forall fuel n e, 0 <= e < 2 ^ Z.of_nat n -> (1 <= fuel)%nat ->
  (2 * n + (if Z.odd e then 1 else 0) <= fuel)%nat -> in_rep t e = true ->
  mu_pow_fuel fuel t b e = arith t (b ^ e).
Proof.
  intros t b W Wb. pose proof (rmax_big t W) as RB. pose proof (rmin_nonpos t W) as RN.
  assert (I : forall k e, 0 <= k <= e -> in_rep t e = true -> in_rep t k = true).
  { intros k e K We. rewrite in_rep_iff in *. lia. }
  induction fuel as [|fuel IH]; intros n e En F1 F We; [lia|]. cbn [mu_pow_fuel].
  destruct (Z.eqb_spec e 0) as [->|E0].
  { cbn [Z.pow]. rewrite arith_in; auto. rewrite in_rep_iff. lia. }
  destruct n as [|n]; [cbn in En; lia|].
  assert (P2 : 2 ^ Z.of_nat (S n) = 2 * 2 ^ Z.of_nat n) by (rewrite Nat2Z.inj_succ; apply Z.pow_succ_r; lia).
  unfold m_rem, m_div, m_sub. cbn [Z.eqb]. rewrite (arith_in t (Z.quot e 2)); auto.
  2:{ apply (I _ e); auto. rewrite Z.quot_div_nonneg by lia. pose proof (Z.div_le_upper_bound e 2 e). split; [apply Z.div_pos; lia|lia]. }
  cbn [bind]. rewrite (rem2_odd e) by lia. destruct (Z.odd e) eqn:O; cbn [Z.eqb Pos.eqb].
  - rewrite (arith_in t (e - 1)); auto. 2:{ apply (I _ e); auto. lia. } cbn [bind].
    assert (OE : Z.odd (e - 1) = false).
    { rewrite Z.odd_sub, O. reflexivity. }
    rewrite (IH (S n) (e - 1)); [|lia|lia|rewrite OE; lia|apply (I _ e); auto; lia].
    assert (B : b = b ^ 1) by lia.
    assert (Z1 : b ^ e = b * b ^ (e - 1)).
    { replace e with (1 + (e - 1)) at 1 by lia. rewrite Z.pow_add_r by lia. now rewrite Z.pow_1_r. }
    rewrite <- (arith_mul t b (b ^ (e - 1)) (b ^ e) W Z1).
    + rewrite (arith_in t b W Wb). reflexivity.
    + intros S K. congruence.
    + intros S K. apply (pow_not_in t b e (e - 1)); auto. lia.
  - rewrite Z.quot_div_nonneg by lia.
    assert (D : e = 2 * (e / 2)).
    { rewrite (Z.div_mod e 2) at 1 by lia. rewrite Zmod_odd, O. lia. }
    rewrite (IH n (e / 2)); [|lia|lia|destruct (Z.odd (e / 2)); lia|apply (I _ e); auto; lia].
    assert (Z1 : b ^ e = b ^ (e / 2) * b ^ (e / 2)).
    { rewrite D at 1. replace (2 * (e / 2)) with (e / 2 + e / 2) by lia. apply Z.pow_add_r; lia. }
    rewrite <- (arith_mul t (b ^ (e / 2)) (b ^ (e / 2)) (b ^ e) W Z1).
    + destruct (arith t (b ^ (e / 2))); reflexivity.
    + intros S K. apply (pow_not_in t b e (e / 2)); auto. lia.
    + intros S K. apply (pow_not_in t b e (e / 2)); auto. lia.
Qed.

Lemma pow_fuel_enough : forall t b e, wf_rep t -> in_rep t b = true -> 0 <= e -> in_rep t e = true ->
  mu_pow t b e = arith t (b ^ e).
Proof.
  intros t b e W Wb E We. unfold mu_pow.
  apply (mu_pow_fuel_spec t b W Wb _ (Z.to_nat (rbits t))); auto.
  - unfold wf_rep in W. rewrite Z2Nat.id by lia. rewrite in_rep_iff in We. unfold rmax in We.
    assert (2 ^ (rbits t - 1) <= 2 ^ rbits t) by (apply Z.pow_le_mono_r; lia).
    destruct (rsigned t); lia.
  - unfold wf_rep in W. lia.
  - unfold wf_rep in W. destruct (Z.odd e); lia.
Qed.

(** Every non-negative int is a value of [t]. *)
Lemma int_cast : forall t e, wf_rep t -> 0 <= e <= 2147483647 -> cast t e = e /\ in_rep t e = true.
Proof.
  intros t e W H. assert (I : in_rep t e = true).
  { rewrite in_rep_iff. pose proof (rmax_big t W). pose proof (rmin_nonpos t W). lia. }
  split; auto. unfold cast. now apply wrap_id.
Qed.

Lemma neg_int : forall e, -2147483647 <= e < 0 -> m_neg int32 e = Ok (- e).
Proof.
  intros e H. unfold m_neg. apply arith_in; [unfold wf_rep; cbn; lia|]. apply in_rep_iff. cbn. lia.
Qed.

Lemma f_pow_eq : forall t b e, wf_rep t -> in_rep t b = true -> -2147483647 <= e <= 2147483647 ->
  f_pow t b e = do p <- arith t (b ^ Z.abs e); Ok (if e >=? 0 then mkRaw p 1 else mkRaw 1 p).
Proof.
  intros t b e W Wb H. unfold f_pow. rewrite Z.geb_leb. destruct (Z.leb_spec 0 e) as [P|P].
  - destruct (int_cast t e W ltac:(lia)) as [-> I]. rewrite (pow_fuel_enough t b e); auto. now rewrite Z.abs_eq.
  - rewrite neg_int by lia. cbn [bind]. destruct (int_cast t (- e) W ltac:(lia)) as [-> I].
    rewrite (pow_fuel_enough t b (- e)); auto; [|lia]. now rewrite Z.abs_neq by lia.
Qed.

Lemma inject_pow : forall b n, 0 <= n -> (inject_Z b ^ n == inject_Z (b ^ n))%Q.
Proof.
  intros b n H. destruct (Z_of_nat_complete n H) as [m ->]. clear H. induction m as [|m IH]; [reflexivity|].
  rewrite Nat2Z.inj_succ. rewrite Z.pow_succ_r by lia. rewrite inject_Z_mult, <- IH.
  destruct m as [|m]; [cbn; ring|].
  unfold Z.succ. rewrite Qpower.Qpower_plus' by lia. change (inject_Z b ^ 1)%Q with (inject_Z b). ring.
Qed.

Lemma f_pow_value : forall t b e r, wf_rep t -> rsigned t = true -> in_rep t b = true ->
  -2147483647 <= e <= 2147483647 -> f_pow t b e = Ok r ->
  (0 <= e \/ b <> 0 -> exists v, value r = Some v /\ (v == inject_Z b ^ e)%Q) /\
  (e < 0 -> b = 0 -> value r = None).
Proof.
  intros t b e r W S Wb He H. rewrite f_pow_eq in H by auto. inv_bind H. apply arith_signed in E as [-> _]; auto.
  rewrite Z.geb_leb in H. destruct (Z.leb_spec 0 e) as [P|P]; inversion H; subst r; clear H; split.
  - intros _. rewrite value_over by lia. eexists; split; eauto. rewrite Z.abs_eq by lia.
    rewrite inject_pow by lia. cbn. field.
  - lia.
  - intros [K|K]; [lia|].
    assert (b ^ Z.abs e <> 0) by (apply Z.pow_nonzero; lia).
    rewrite value_over by auto. eexists; split; eauto.
    rewrite Z.abs_neq by lia. rewrite <- (Z.opp_involutive e) at 2.
    rewrite Qpower.Qpower_opp, inject_pow by lia. unfold Qdiv. change (inject_Z 1) with 1%Q. ring.
  - intros _ ->. rewrite Z.pow_0_l by lia. reflexivity.
Qed.

Lemma f_pow_defined : forall t b e, wf_rep t -> rsigned t = true -> in_rep t b = true ->
  -2147483647 <= e <= 2147483647 ->
  ((exists r, f_pow t b e = Ok r) <-> in_rep t (b ^ Z.abs e) = true).
Proof.
  intros t b e W S Wb He. rewrite f_pow_eq by auto. unfold arith. rewrite S.
  destruct (in_rep t (b ^ Z.abs e)); cbn [bind]; split; eauto; [intros [r K]; discriminate|discriminate].
Qed.

Lemma f_pow_int_min : forall t b, f_pow t b (-2147483648) = UB Overflow.
Proof. intros. reflexivity. Qed.

(** ** pow2 *)

Lemma mu_pow2_ok : forall t k, wf_rep t -> 0 <= k <= 2147483647 ->
  mu_pow2 t (cast t k) = if k <? rbits t then Ok (wrap t (2 ^ k)) else UB BadShift.
Proof.
  intros t k W K. unfold mu_pow2. destruct (int_cast t k W K) as [-> _].
  assert (WU : wf_rep (make_unsigned t)) by exact W.
  destruct (int_cast (make_unsigned t) k WU K) as [-> _].
  unfold m_shl. cbn [rbits make_unsigned]. rewrite (proj2 (Z.leb_le 0 k)) by lia. cbn [andb].
  destruct (Z.ltb_spec k (rbits t)) as [L|L]; cbn [bind]; [|reflexivity].
  f_equal. unfold cast. rewrite Z.mul_1_l. f_equal. apply wrap_id; auto.
  rewrite in_rep_iff. unfold rmin, rmax. cbn [rsigned rbits make_unsigned].
  assert (2 ^ k < 2 ^ rbits t) by (apply Z.pow_lt_mono_r; lia).
  pose proof (Z.pow_pos_nonneg 2 k). lia.
Qed.

Lemma f_pow2_eq : forall t e, wf_rep t -> Z.abs e <= 2147483647 ->
  f_pow2 t e = if Z.abs e <? rbits t
               then Ok (if e >=? 0 then mkRaw (wrap t (2 ^ e)) 1 else mkRaw 1 (wrap t (2 ^ (- e))))
               else UB BadShift.
Proof.
  intros t e W He. unfold f_pow2. rewrite Z.geb_leb. destruct (Z.leb_spec 0 e) as [P|P].
  - rewrite mu_pow2_ok, Z.abs_eq by (auto; lia). destruct (e <? rbits t); reflexivity.
  - rewrite neg_int by lia. cbn [bind]. rewrite mu_pow2_ok, Z.abs_neq by (auto; lia).
    destruct (- e <? rbits t); reflexivity.
Qed.

Lemma f_pow2_value : forall t e, wf_rep t -> Z.abs e < (if rsigned t then rbits t - 1 else rbits t) ->
  Z.abs e <= 2147483647 ->
  exists r v, f_pow2 t e = Ok r /\ value r = Some v /\ (v == (2 # 1) ^ e)%Q.
Proof.
  intros t e W B He. rewrite f_pow2_eq by auto.
  rewrite (proj2 (Z.ltb_lt _ _)) by (destruct (rsigned t); lia).
  assert (M : forall k, 0 <= k <= Z.abs e -> wrap t (2 ^ k) = 2 ^ k /\ 0 < 2 ^ k).
  { intros k K. pose proof (Z.pow_pos_nonneg 2 k ltac:(lia) ltac:(lia)). split; auto.
    apply wrap_id; auto. rewrite in_rep_iff. pose proof (rmin_nonpos t W). unfold rmax.
    assert (2 ^ k < 2 ^ (if rsigned t then rbits t - 1 else rbits t)) by (apply Z.pow_lt_mono_r; destruct (rsigned t); lia).
    destruct (rsigned t); lia. }
  rewrite Z.geb_leb. destruct (Z.leb_spec 0 e) as [P|P].
  - destruct (M e ltac:(lia)) as [-> _]. eexists; eexists; split; eauto. rewrite value_over by lia. split; eauto.
    change (2 # 1)%Q with (inject_Z 2). rewrite inject_pow by lia. cbn. field.
  - destruct (M (- e) ltac:(lia)) as [-> L]. eexists; eexists; split; eauto. rewrite value_over by lia. split; eauto.
    change (2 # 1)%Q with (inject_Z 2). rewrite <- (Z.opp_involutive e) at 2.
    rewrite Qpower.Qpower_opp, inject_pow by lia. unfold Qdiv. change (inject_Z 1) with 1%Q. ring.
Qed.

Lemma f_pow2_out : forall t e, wf_rep t -> rbits t <= Z.abs e <= 2147483647 -> f_pow2 t e = UB BadShift.
Proof. intros t e W H. rewrite f_pow2_eq by (auto; lia). rewrite (proj2 (Z.ltb_ge _ _)) by lia. reflexivity. Qed.

(** ** When round and redenominate cannot overflow *)

Lemma f_floor_bounded : forall t v k B, wf_rep t -> wf_raw t v -> raw_bounded B v ->
  f_floor t v = Ok k -> Z.abs k <= B.
Proof.
  intros t v k B W Wv [Bn Bd] H. unfold f_floor in H. inv_bind H.
  apply f_trunc_ok in E as [D ->]; auto. apply is_integer_rem in E0; auto.
  pose proof (quot_abs_split (num v) (den v) D) as AS.
  destruct (quot_facts (num v) (den v) D) as [F [BB [S _]]].
  set (q := Z.quot (num v) (den v)) in *. set (r := Z.rem (num v) (den v)) in *. clearbody q r.
  assert (Q : Z.abs q <= Z.abs (num v)) by (clear - AS D; nia).
  destruct (a0 || (q >=? 0)) eqn:C; [inversion H; subst; lia|].
  apply orb_false_iff in C as [C1 C2]. rewrite Z.geb_leb in C2. apply Z.leb_gt in C2.
  unfold m_sub in H. subst a0. apply Z.eqb_neq in C1.
  assert (Q1 : Z.abs q + 1 <= Z.abs (num v)) by (clear - AS D C1; nia).
  destruct (rsigned t) eqn:SG.
  - apply arith_signed in H as [-> _]; auto. lia.
  - destruct (wf_raw_nonneg t v Wv SG). exfalso. assert (0 <= r) by tauto. clear - F H1 H2 C2 H0 D BB. nia.
Qed.

Lemma f_round_total : forall o t v B, wf_rep t -> rsigned t = true -> wf_raw t v ->
  built_on_safe o = true \/ normalises_inputs o = true \/ 0 < den v ->
  den v <> 0 -> raw_bounded B v -> 4 * B * B * B * B <= rmax t ->
  exists k, f_round (denote o) t v = Ok k.
Proof.
  intros o t v B W S Wv C D [Bn Bd] HB. unfold f_round.
  assert (B1 : 1 <= B) by lia.
  assert (H1 : B * B >= 1) by nia.
  assert (H2 : 4 * (B * B) <= rmax t) by nia.
  assert (H3 : 4 * B <= rmax t) by nia.
  assert (TD : trunc_defined t v).
  { split; auto. rewrite (rmin_rmax_signed t S). lia. }
  destruct (proj2 (f_floor_defined t v W Wv) TD) as [f F]. rewrite F. cbn [bind].
  pose proof (f_floor_in _ _ _ W Wv F) as Wf.
  pose proof (f_floor_bounded t v f B W Wv (conj Bn Bd) F) as Bf.
  rewrite f_arith_self.
  assert (A : wf_args t (RI v f)) by (split; auto).
  assert (V : value v = Some (inject_Z (num v) / inject_Z (den v))%Q) by (now apply value_defined).
  destruct (total_step o t Minus (RI v f) B _ (inject_Z f) _ W S A
             ltac:(cbn [left_value]; rewrite V; reflexivity) ltac:(reflexivity)
             ltac:(split; [split; auto|auto]) ltac:(lia) eq_refl) as [d [E [Wd [Bd' Vd]]]].
  rewrite E. cbn [bind]. rewrite f_cmp_self.
  assert (Wh : wf_raw t (mkRaw 1 2)).
  { pose proof (rmax_big t W). pose proof (rmin_nonpos t W).
    split; rewrite in_rep_iff; cbn [num den]; lia. }
  rewrite (denote_cmp_def_total o t Lt (RR d (mkRaw 1 2)) (2 * B * B)); auto.
  - cbn [bind]. destruct (exact_cmp_opt _ _ _); eauto. unfold m_add. rewrite arith_in; eauto.
    rewrite in_rep_iff, (rmin_rmax_signed t S). lia.
  - split; auto.
  - split; [auto|]. split; cbn [num den Z.abs]; lia.
  - lia.
  - nia.
  - split; cbn [left_value right_value].
    + destruct (value d); [discriminate|contradiction].
    + discriminate.
  - right. destruct C as [C|[C|C]]; [right; right; now left|now left|].
    right; left. split; [now apply (minus_int_den o t v f d)|cbn; lia].
Qed.

Lemma value_nonneg_unsigned : forall t v q, rsigned t = false -> wf_raw t v -> value v = Some q -> (0 <= q)%Q.
Proof.
  intros t v q S Wv V. destruct (wf_raw_nonneg t v Wv S) as [N D].
  unfold value in V. destruct (Z.eqb_spec (den v) 0) as [E|E]; [discriminate|]. inversion V; subst q.
  apply Qle_shift_div_l; [change 0%Q with (inject_Z 0); rewrite <- Zlt_Qlt; lia|].
  rewrite Qmult_0_l. change 0%Q with (inject_Z 0). rewrite <- Zle_Qle. lia.
Qed.
