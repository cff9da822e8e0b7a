(** Rounding, absolute value, redenomination and powers. *)

From Coq Require Import ZArith QArith Qabs Bool Lia Zquot Lqa.
From Verif Require Import Machine Raw Ops Spec Fraction Fmath Fmath_spec.
From Verif Require Import Machine_proofs Value_proofs Ops_proofs Total_proofs Cmp_proofs Order_proofs Algebra_proofs Laws_proofs Fraction_proofs.
Open Scope Z_scope.

Lemma int_div : forall k, (inject_Z k == inject_Z k / inject_Z 1)%Q.
Proof. intros. unfold Qdiv, Qinv. cbn. now rewrite Qmult_1_r. Qed.

Lemma Qle_int_div : forall k n d, d <> 0 -> (inject_Z k <= inject_Z n / inject_Z d)%Q <-> k * d * d <= n * d.
Proof. intros k n d H. rewrite (int_div k), qdiv_le by lia. lia. Qed.
Lemma Qlt_int_div : forall k n d, d <> 0 -> (inject_Z k < inject_Z n / inject_Z d)%Q <-> k * d * d < n * d.
Proof. intros k n d H. rewrite (int_div k), qdiv_lt by lia. lia. Qed.
Lemma Qdiv_le_int : forall k n d, d <> 0 -> (inject_Z n / inject_Z d <= inject_Z k)%Q <-> n * d <= k * d * d.
Proof. intros k n d H. rewrite (int_div k), qdiv_le by lia. lia. Qed.
Lemma Qdiv_lt_int : forall k n d, d <> 0 -> (inject_Z n / inject_Z d < inject_Z k)%Q <-> n * d < k * d * d.
Proof. intros k n d H. rewrite (int_div k), qdiv_lt by lia. lia. Qed.

(** ** abs *)

Lemma f_abs_spec : forall o t v r, wf_rep t -> rsigned t = true -> wf_raw t v ->
  f_abs (denote o) t v = Ok r -> forall x, value v = Some x ->
  exists q, value r = Some q /\ (q == Qabs x)%Q.
Proof.
  intros o t v r W S Wv H x V. unfold f_abs in H.
  destruct (is_non_negative v) eqn:E.
  - inversion H; subst. exists x. split; auto. apply is_non_negative_spec in E.
    unfold value_is in E. rewrite V in E. symmetry. now apply Qabs_pos.
  - unfold f_negate in H. apply denote_negate in H; auto. rewrite V in H. cbn [opp_opt] in H.
    destruct (value r) as [q|]; [|contradiction]. cbn in H. exists q. split; auto.
    rewrite H. symmetry. apply Qabs_neg. apply not_true_iff_false in E.
    rewrite is_non_negative_spec in E. unfold value_is in E. rewrite V in E.
    apply Qlt_le_weak, Qnot_le_lt. exact E.
Qed.

(** ** trunc *)

Lemma f_trunc_ok : forall t v k, wf_rep t -> wf_raw t v -> f_trunc t v = Ok k ->
  den v <> 0 /\ k = Z.quot (num v) (den v).
Proof.
  intros t v k W [Wn Wd] H. unfold f_trunc, m_div in H.
  destruct (Z.eqb_spec (den v) 0) as [|D]; [discriminate|]. split; auto.
  unfold arith in H. destruct (rsigned t) eqn:S.
  - destruct (in_rep t (Z.quot (num v) (den v))); inversion H; auto.
  - inversion H. apply wrap_id; auto.
    rewrite in_rep_iff in *. unfold rmin in *. rewrite S in *.
    pose proof (Z.quot_pos (num v) (den v)).
    assert (Z.quot (num v) (den v) <= num v); [|lia].
    apply Z.quot_le_upper_bound; [lia|]. nia.
Qed.

(** Facts about the truncated quotient, in a form suited to nia. *)
Lemma quot_facts : forall n d, d <> 0 ->
  let k := Z.quot n d in let r := Z.rem n d in
  n = d * k + r /\ Z.abs r < Z.abs d /\ ((0 <= n -> 0 <= r) /\ (n <= 0 -> r <= 0)) /\ (r = 0 <-> exists j, n = j * d).
Proof.
  intros n d H k r. subst k r. repeat split.
  - apply Z.quot_rem'.
  - now apply Z.rem_bound_abs.
  - now apply Z.rem_nonneg.
  - now apply Z.rem_nonpos.
  - intros E. exists (Z.quot n d). pose proof (Z.quot_rem' n d). lia.
  - intros [j ->]. now apply Z.rem_mul.
Qed.

Lemma quot_is_trunc : forall n d, d <> 0 -> is_trunc (Z.quot n d) (inject_Z n / inject_Z d)%Q.
Proof.
  intros n d H. destruct (quot_facts n d H) as [E [B [S _]]].
  set (k := Z.quot n d) in *. set (r := Z.rem n d) in *. clearbody k r.
  split; intros P; rewrite ?Qle_int_div, ?Qlt_int_div, ?Qdiv_le_int, ?Qdiv_lt_int by auto.
  - rewrite Qdiv_nonneg_iff in P by auto.
    destruct P as [[P1 P2]|[P1 P2]].
    + assert (0 <= r) by lia. split; nia.
    + assert (r <= 0) by lia. split; nia.
  - rewrite Qdiv_nonpos_iff in P by auto.
    destruct P as [[P1 P2]|[P1 P2]].
    + assert (0 <= r) by lia. split; nia.
    + assert (r <= 0) by lia. split; nia.
Qed.

Lemma f_trunc_spec : forall t v k, wf_rep t -> wf_raw t v -> f_trunc t v = Ok k ->
  exists q, value v = Some q /\ is_trunc k q.
Proof.
  intros t v k W Wv H. apply f_trunc_ok in H as [D ->]; auto.
  rewrite value_defined by auto. eexists; split; [reflexivity|]. now apply quot_is_trunc.
Qed.

(** ** floor and ceil *)

Lemma is_integer_rem : forall t v b, den v <> 0 -> is_integer t v = Ok b -> b = (Z.rem (num v) (den v) =? 0).
Proof.
  intros t v b D H. unfold is_integer in H. apply is_defined_iff in D. rewrite D in H.
  inv_bind H. inversion H; subst. apply m_rem_value in E as [_ ->]. reflexivity.
Qed.

Lemma trunc_unsigned_nonneg : forall t v k, wf_rep t -> wf_raw t v -> rsigned t = false ->
  f_trunc t v = Ok k -> 0 <= k.
Proof.
  intros t v k W Wv S H. apply f_trunc_ok in H as [D ->]; auto.
  destruct (wf_raw_nonneg t v Wv S). apply Z.quot_pos; lia.
Qed.

Lemma f_floor_spec : forall t v k, wf_rep t -> wf_raw t v -> f_floor t v = Ok k ->
  exists q, value v = Some q /\
  (tiny_negative q -> k = 0) /\ (~ tiny_negative q -> is_floor k q).
Proof.
  intros t v k W Wv H. unfold f_floor in H. inv_bind H. inv_bind H.
  pose proof (trunc_unsigned_nonneg t v a W Wv) as U.
  pose proof (f_trunc_ok _ _ _ W Wv E) as [D Ea].
  apply is_integer_rem in E0; auto.
  assert (K : k = if a0 || (a >=? 0) then a else a - 1).
  { destruct (a0 || (a >=? 0)) eqn:B; [congruence|].
    unfold m_sub in H. destruct (rsigned t) eqn:S.
    - now apply arith_signed in H as [-> _].
    - specialize (U eq_refl E). apply orb_false_iff in B as [_ B]. rewrite Z.geb_leb, Z.leb_gt in B. lia. }
  clear H E U. rewrite value_defined by auto. eexists; split; [reflexivity|].
  destruct (quot_facts (num v) (den v) D) as [F [B [S _]]].
  unfold tiny_negative, is_floor. change 0%Q with (inject_Z 0).
  rewrite !Qle_int_div, !Qlt_int_div, !Qdiv_lt_int by auto.
  rewrite Ea in *. rewrite E0 in K. clear E0 Ea a a0.
  set (q := Z.quot (num v) (den v)) in *. set (r := Z.rem (num v) (den v)) in *. clearbody q r.
  set (n := num v) in *. set (d := den v) in *. clearbody n d. clear Wv W t v.
  destruct (Z.eqb_spec r 0) as [R|R]; cbn [orb] in K.
  - subst k r. assert (N : n = d * q) by lia. clear F S B. subst n. split.
    + intros [T1 T2]. assert (P : 0 < d * d) by nia. assert (-1 < q /\ q < 0) by nia. lia.
    + intros _. nia.
  - rewrite Z.geb_leb in K. destruct (Z.leb_spec 0 q) as [Q|Q].
    + subst k. split.
      * intros [T1 T2]. assert (q < 1); [|lia].
        assert (0 <= n \/ n <= 0) as [N|N] by lia.
        -- assert (d < 0) by nia. nia.
        -- assert (0 < d) by nia. nia.
      * intros T. assert (0 < n * d).
        { destruct (Z.lt_trichotomy 0 (n * d)) as [L|[L|L]]; auto.
          - exfalso. assert (n = 0) by nia. subst n. assert (r = 0); lia.
          - exfalso. apply T. split; [|lia].
            assert (q = 0) by nia. subst q. nia. }
        assert (0 < n /\ 0 < d \/ n < 0 /\ d < 0) as [[N1 N2]|[N1 N2]] by nia; nia.
    + subst k. split.
      * intros [T1 T2]. exfalso. assert (0 < n \/ n < 0) as [N|N] by nia; nia.
      * intros _. assert (0 < n \/ n < 0) as [N|N] by nia; nia.
Qed.

Lemma f_ceil_spec : forall t v k, wf_rep t -> wf_raw t v -> f_ceil t v = Ok k ->
  exists q, value v = Some q /\
  (tiny_negative q -> k = 1) /\ (~ tiny_negative q -> is_ceil k q).
Proof.
  intros t v k W Wv H. unfold f_ceil in H. inv_bind H. inv_bind H.
  pose proof (f_trunc_ok _ _ _ W Wv E) as [D Ea].
  apply is_integer_rem in E0; auto.
  destruct (quot_facts (num v) (den v) D) as [F [B [S _]]].
  assert (K : k = if a0 || (a <? 0) then a else a + 1).
  { destruct (a0 || (a <? 0)) eqn:X; [congruence|].
    unfold m_add in H. destruct (rsigned t) eqn:Sg.
    - now apply arith_signed in H as [-> _].
    - apply orb_false_iff in X as [X1 X2]. apply Z.ltb_ge in X2. rewrite E0 in X1. apply Z.eqb_neq in X1.
      destruct (wf_raw_nonneg t v Wv Sg) as [P1 P2].
      rewrite arith_in in H; auto; [congruence|]. destruct Wv as [Wn Wd].
      rewrite in_rep_iff in *. unfold rmin in *. rewrite Sg in *. rewrite <- Ea in F.
      split; [lia|]. destruct S as [S1 S2]. specialize (S1 P1). nia. }
  clear H E. rewrite value_defined by auto. eexists; split; [reflexivity|].
  unfold tiny_negative, is_ceil. change 0%Q with (inject_Z 0).
  rewrite !Qdiv_le_int, !Qlt_int_div, !Qdiv_lt_int by auto.
  rewrite Ea in *. rewrite E0 in K. clear E0 Ea a a0.
  set (q := Z.quot (num v) (den v)) in *. set (r := Z.rem (num v) (den v)) in *. clearbody q r.
  set (n := num v) in *. set (d := den v) in *. clearbody n d. clear Wv W t v.
  destruct (Z.eqb_spec r 0) as [R|R]; cbn [orb] in K.
  - subst k r. assert (N : n = d * q) by lia. clear F S B. subst n. split.
    + intros [T1 T2]. assert (P : 0 < d * d) by nia. assert (-1 < q /\ q < 0) by nia. lia.
    + intros _. nia.
  - destruct (Z.ltb_spec q 0) as [Q|Q].
    + subst k. split.
      * intros [T1 T2]. exfalso. assert (0 < n \/ n < 0) as [N|N] by nia; nia.
      * intros _. assert (0 < n \/ n < 0) as [N|N] by nia; nia.
    + subst k. split.
      * intros [T1 T2]. assert (q < 1); [|lia].
        assert (0 <= n \/ n <= 0) as [N|N] by lia.
        -- assert (d < 0) by nia. nia.
        -- assert (0 < d) by nia. nia.
      * intros T. assert (0 < n * d).
        { destruct (Z.lt_trichotomy 0 (n * d)) as [L|[L|L]]; auto.
          - exfalso. assert (n = 0) by nia. subst n. assert (r = 0); lia.
          - exfalso. apply T. split; [|lia].
            assert (q = 0) by nia. subst q. nia. }
        assert (0 < n /\ 0 < d \/ n < 0 /\ d < 0) as [[N1 N2]|[N1 N2]] by nia; nia.
Qed.

(** ** round *)

(** Subtracting an integer keeps a positive denominator positive. *)
Lemma minus_int_den : forall o t v z r, wf_rep t -> rsigned t = true -> wf_raw t v -> in_rep t z = true ->
  0 < den v -> p_arith (denote o) t Minus (RI v z) = Ok r -> 0 < den r.
Proof.
  induction o as [| |o IH m|o IH m]; intros t v z r W S Wv Wz P H; cbn [denote] in H.
  - cbn in H. unfold safe_minus_ri in H. inv_all. auto.
  - cbn in H. unfold fast_minus_ri in H. inv_all. auto.
  - rewrite ri_arith_eq in H. cbn [reduce_args] in H. inv_bind H. inv_bind E. inversion E; subst.
    apply reduce_spec in E0 as [Wr [R _]]; auto. apply IH in H; auto.
    destruct m; [apply (reduces_den_pos _ _ R); lia|apply reduces_den_sign in R; lia].
  - rewrite ro_arith_eq in H. inv_bind H. pose proof (arith_wf _ _ _ _ _ W (conj Wv Wz : wf_args t (RI v z)) E) as Wa.
    apply IH in E; auto. apply reduce_spec in H as [Wr [R _]]; auto.
    destruct m; [apply (reduces_den_pos _ _ R); lia|apply reduces_den_sign in R; lia].
Qed.

Lemma f_floor_in : forall t v k, wf_rep t -> wf_raw t v -> f_floor t v = Ok k -> in_rep t k = true.
Proof.
  intros t v k W Wv H. unfold f_floor in H. inv_bind H. inv_bind H.
  destruct (a0 || (a >=? 0)).
  - inversion H; subst. unfold f_trunc, m_div in E. destruct (den v =? 0); [discriminate|].
    eapply arith_result_in; eauto.
  - eapply arith_result_in; eauto.
Qed.

Lemma tiny_negative_dec : forall q, tiny_negative q \/ ~ tiny_negative q.
Proof.
  intros q. unfold tiny_negative.
  destruct (Qlt_le_dec (inject_Z (-1)) q) as [H|H].
  - destruct (Qlt_le_dec q 0) as [K|K]; [left; auto|right; lra].
  - right; lra.
Qed.

Lemma f_round_spec : forall o t v k, wf_rep t -> rsigned t = true -> wf_raw t v ->
  built_on_safe o = true \/ normalises_inputs o = true \/ 0 < den v ->
  f_round (denote o) t v = Ok k ->
  exists q, value v = Some q /\
  (below_minus_half q -> k = 0) /\ (~ below_minus_half q -> is_round k q).
Proof.
  intros o t v k W S Wv C H. unfold f_round in H. inv_bind H.
  pose proof (f_floor_in _ _ _ W Wv E) as Wa.
  apply f_floor_spec in E as [q [V [F1 F2]]]; auto.
  exists q. split; auto.
  rename E0 into E, E1 into E0. rewrite f_arith_self in E.
  assert (A : wf_args t (RI v a)) by (split; auto).
  pose proof (denote_exact_opt o t Minus (RI v a) a0 W S A) as X.
  cbn [left_value right_value] in X. rewrite V in X. cbn [exact_opt exact] in X.
  specialize (X ltac:(left; discriminate) E).
  destruct (value a0) as [d|] eqn:Vd; [|contradiction]. cbn [same_value] in X.
  rewrite f_cmp_self in E0.
  pose proof (arith_wf _ _ _ _ _ W A E) as Wd.
  assert (Wh : wf_raw t (mkRaw 1 2)).
  { split; cbn; rewrite in_rep_iff; unfold rmin, rmax; rewrite S; unfold wf_rep in W;
      assert (2 ^ 31 <= 2 ^ (rbits t - 1)) by (apply Z.pow_le_mono_r; lia);
      change (2 ^ 31) with 2147483648 in *; lia. }
  apply (denote_cmp o t Lt (RR a0 (mkRaw 1 2)) a1 W S) in E0;
    [|split; auto
     |right; destruct C as [C|[C|C]];
       [right; right; now left|now left|right; left; split; [now apply (minus_int_den o t v a a0)|cbn; lia]]].
  cbn [left_value right_value] in E0. rewrite Vd in E0.
  change (value (mkRaw 1 2)) with (Some (inject_Z 1 / inject_Z 2)%Q) in E0.
  cbn [exact_cmp_opt] in E0.
  assert (Hh : (inject_Z 1 / inject_Z 2 == 1 # 2)%Q) by reflexivity.
  assert (B : (a1 = true -> (d < 1 # 2)%Q) /\ (a1 = false -> (1 # 2 <= d)%Q)).
  { pose proof (exact_lt_iff d (inject_Z 1 / inject_Z 2)) as L. rewrite <- E0 in L. rewrite Hh in L.
    split; [tauto|]. intros N. apply Qnot_lt_le. intros K. apply L in K. congruence. }
  assert (K : k = if a1 then a else a + 1).
  { destruct a1; [congruence|]. unfold m_add in H. now apply arith_signed in H as [-> _]. }
  clear H E E0 Wd Vd.
  unfold below_minus_half, is_round in *.
  destruct (tiny_negative_dec q) as [T|T].
  - specialize (F1 T). subst a. unfold tiny_negative in T. change (inject_Z (-1)) with (-1)%Q in *.
    change (inject_Z 0) with 0%Q in X.
    destruct a1; [|exfalso; destruct B as [_ B]; specialize (B eq_refl); lra].
    subst k. change (inject_Z 0) with 0%Q. split; [reflexivity|]. intros NB. split; [|lra].
    apply Qnot_lt_le. intros L. apply NB. split; [tauto|]. lra.
  - specialize (F2 T). unfold is_floor in F2. rewrite inject_Z_plus in F2. change (inject_Z 1) with 1%Q in F2.
    split.
    + intros [L1 L2]. exfalso. apply T. unfold tiny_negative. split; auto. lra.
    + intros _. destruct a1; subst k.
      * destruct B as [B _]. specialize (B eq_refl). lra.
      * destruct B as [_ B]. specialize (B eq_refl). rewrite inject_Z_plus. change (inject_Z 1) with 1%Q. lra.
Qed.

(** ** Undefined behaviour of trunc, floor and ceil *)

Lemma quot_abs_split : forall a b, b <> 0 ->
  Z.abs a = Z.abs b * Z.abs (Z.quot a b) + Z.abs (Z.rem a b).
Proof.
  intros a b H. rewrite <- Z.quot_abs, <- Z.rem_abs by auto. apply Z.quot_rem'.
Qed.

Lemma m_div_ok_iff : forall t a b, wf_rep t -> in_rep t a = true -> in_rep t b = true ->
  (exists k, m_div t a b = Ok k) <-> b <> 0 /\ ~ (rsigned t = true /\ a = rmin t /\ b = -1).
Proof.
  intros t a b W Wa Wb. unfold m_div. destruct (Z.eqb_spec b 0) as [Z|Z].
  - split; [intros [k H]; discriminate|tauto].
  - unfold arith. destruct (rsigned t) eqn:S; [|split; intros; [split; auto; intros []; discriminate|eauto]].
    rewrite in_rep_iff in *.
    assert (R : rmin t = - rmax t - 1) by (unfold rmin, rmax; rewrite S; lia).
    assert (RM : 0 < rmax t).
    { unfold rmax. rewrite S. unfold wf_rep in W.
      assert (2 ^ 31 <= 2 ^ (rbits t - 1)) by (apply Z.pow_le_mono_r; lia).
      change (2 ^ 31) with 2147483648 in *. lia. }
    assert (Q : in_rep t (Z.quot a b) = true <-> ~ (a = rmin t /\ b = -1)).
    { rewrite in_rep_iff. destruct (quot_facts a b Z) as [F [B [Sg _]]]. pose proof (quot_abs_split a b Z) as AS.
      set (q := Z.quot a b) in *. set (r := Z.rem a b) in *. clearbody q r. split.
      - intros H [-> ->]. assert (r = 0) by lia. lia.
      - intros H. assert (b = 1 \/ b = -1 \/ 1 < Z.abs b) as [->|[->|L]] by lia; try lia.
        assert (Z.abs q < Z.abs a \/ a = 0).
        { destruct (Z.eq_dec a 0); auto. left.
          nia. }
        assert (a = 0 -> q = 0) by (intros ->; nia). lia. }
    destruct (in_rep t (Z.quot a b)); split; intros H.
    + split; auto. intros [_ X]. now apply Q.
    + eauto.
    + destruct H; discriminate.
    + exfalso. assert (false = true) by (apply Q; tauto). discriminate.
Qed.

Definition trunc_defined (t : rep) (v : raw) : Prop :=
  den v <> 0 /\ ~ (rsigned t = true /\ num v = rmin t /\ den v = -1).

Lemma f_trunc_defined : forall t v, wf_rep t -> wf_raw t v ->
  (exists k, f_trunc t v = Ok k) <-> trunc_defined t v.
Proof. intros t v W [Wn Wd]. now apply m_div_ok_iff. Qed.

Lemma is_integer_ok : forall t v, wf_rep t -> wf_raw t v -> trunc_defined t v ->
  is_integer t v = Ok (Z.rem (num v) (den v) =? 0).
Proof.
  intros t v W Wv H. pose proof (proj2 (f_trunc_defined t v W Wv) H) as [k K].
  destruct H as [D _]. unfold f_trunc, m_div in K. unfold is_integer, m_rem.
  rewrite (is_defined_den v D). rewrite (proj2 (Z.eqb_neq _ _) D) in *.
  rewrite K. reflexivity.
Qed.

(** A non-integer has room for the adjustment by one. *)
Lemma quot_room : forall t v, wf_rep t -> wf_raw t v -> den v <> 0 -> Z.rem (num v) (den v) <> 0 ->
  rmin t <= Z.quot (num v) (den v) - (if rsigned t then 1 else 0) /\ Z.quot (num v) (den v) + 1 <= rmax t.
Proof.
  intros t v W Wv D R. destruct (quot_facts (num v) _ D) as [F [B [[S1 S2] _]]]. pose proof (quot_abs_split (num v) _ D) as AS.
  assert (SG : rsigned t = false -> 0 <= num v /\ 0 <= den v) by (intros; now apply (wf_raw_nonneg t)).
  destruct Wv as [Wn Wd]. rewrite in_rep_iff in *.
  set (n := num v) in *. set (d := den v) in *. set (q := Z.quot n d) in *. set (r := Z.rem n d) in *.
  clearbody n d q r. assert (L : 2 <= Z.abs d) by lia.
  assert (Rm : if rsigned t then rmin t = - rmax t - 1 else rmin t = 0) by (unfold rmin, rmax; destruct (rsigned t); lia).
  assert (A : 2 * Z.abs q + 1 <= Z.abs n).
  { nia. }
  destruct (rsigned t).
  - lia.
  - destruct (SG eq_refl). assert (0 <= q); [|lia].
    assert (0 <= q \/ q <= -1) as [|X] by lia; auto. exfalso. nia.
Qed.

Lemma f_floor_defined : forall t v, wf_rep t -> wf_raw t v ->
  (exists k, f_floor t v = Ok k) <-> trunc_defined t v.
Proof.
  intros t v W Wv. split.
  - intros [k H]. unfold f_floor in H. inv_bind H. apply (f_trunc_defined t v W Wv). eauto.
  - intros H. pose proof (proj2 (f_trunc_defined t v W Wv) H) as [k K]. unfold f_floor. rewrite K. cbn [bind].
    rewrite (is_integer_ok t v W Wv H). cbn [bind].
    apply f_trunc_ok in K as [D ->]; auto.
    destruct (Z.eqb_spec (Z.rem (num v) (den v)) 0) as [R|R]; cbn [orb]; [eauto|].
    rewrite Z.geb_leb. destruct (Z.leb_spec 0 (Z.quot (num v) (den v))) as [Q|Q]; [eauto|].
    destruct (quot_room t v W Wv D R) as [R1 R2]. unfold m_sub.
    destruct (rsigned t) eqn:S.
    + rewrite arith_in; eauto. rewrite in_rep_iff. lia.
    + destruct (wf_raw_nonneg t v Wv S). pose proof (Z.quot_pos (num v) (den v)). lia.
Qed.

Lemma f_ceil_defined : forall t v, wf_rep t -> wf_raw t v ->
  (exists k, f_ceil t v = Ok k) <-> trunc_defined t v.
Proof.
  intros t v W Wv. split.
  - intros [k H]. unfold f_ceil in H. inv_bind H. apply (f_trunc_defined t v W Wv). eauto.
  - intros H. pose proof (proj2 (f_trunc_defined t v W Wv) H) as [k K]. unfold f_ceil. rewrite K. cbn [bind].
    rewrite (is_integer_ok t v W Wv H). cbn [bind].
    apply f_trunc_ok in K as [D ->]; auto.
    destruct (Z.eqb_spec (Z.rem (num v) (den v)) 0) as [R|R]; cbn [orb]; [eauto|].
    destruct (Z.ltb_spec (Z.quot (num v) (den v)) 0) as [Q|Q]; [eauto|].
    destruct (quot_room t v W Wv D R) as [R1 R2]. unfold m_add.
    rewrite arith_in; eauto. rewrite in_rep_iff.
    assert (rmin t <= 0) by (unfold rmin; destruct (rsigned t); [|lia]; pose proof (Z.pow_nonneg 2 (rbits t - 1)); lia).
    lia.
Qed.
