(** Proofs for C85. *)

From Coq Require Import ZArith QArith List Bool Lia Lqa.
From Verif Require Import Machine Raw Ops Spec Fraction Chrono Chrono_spec Chrono2 Mixed_spec Defined_spec Chrono3_spec.
From Verif Require Import Machine_proofs Value_proofs Ops_proofs Algebra_proofs Fraction_proofs Fmath_proofs
  Limits_proofs Literals_proofs Mixed_proofs Tight_proofs Chrono_proofs Chrono2_proofs Defined_proofs Defined2_proofs.
Import ListNotations.
Open Scope Z_scope.

Lemma ratio_divide_is : forall a b n d, wf_period a -> wf_period b -> is_factor a b n d ->
  ratio_divide a b = Some (mkPeriod n d).
Proof.
  intros from to n d WF WT [[N N64] [[D D64] [G E]]].
  pose proof WF as [[F1 [F2 _]] _]. pose proof WT as [[T1 [T2 _]] _].
  unfold ratio_divide, make_ratio.
  set (x := pnum from * pden to). set (y := pden from * pnum to).
  assert (X : 0 < x) by (unfold x; nia). assert (Y : 0 < y) by (unfold y; nia).
  assert (V : (inject_Z n / inject_Z d == inject_Z x / inject_Z y)%Q).
  { rewrite E. unfold x, y, period_value. rewrite !inject_Z_mult. field. repeat split; apply iz_nz; lia. }
  assert (g0 : Z.gcd x y <> 0) by (intros g; apply Z.gcd_eq_0_l in g; lia).
  pose proof (Z.gcd_nonneg x y).
  destruct (Z.gcd_divide_l x y) as [p P]. destruct (Z.gcd_divide_r x y) as [q Q].
  assert (QA : x / Z.gcd x y = p) by (rewrite P at 1; now apply Z.div_mul).
  assert (QB : y / Z.gcd x y = q) by (rewrite Q at 1; now apply Z.div_mul).
  assert (GG : Z.gcd p q = 1) by (rewrite <- QA, <- QB; apply Z.gcd_div_gcd; auto).
  assert (EQ : mkRaw n d = mkRaw p q).
  { apply canonical_unique.
    - right. cbn. auto.
    - right. cbn. split; auto. nia.
    - rewrite !value_defined by (cbn; nia). cbn [num den same_value]. rewrite V. apply qdiv_eq; nia. }
  injection EQ as -> ->. rewrite QA, QB.
  assert (S64 : signed_rep int64) by (split; [unfold wf_rep; cbn; lia|reflexivity]).
  rewrite !(abs_fits int64) by (auto; rewrite Z.abs_eq by lia; auto). reflexivity.
Qed.

Lemma to_cr_bounded : forall t c q, signed_rep t -> count_bounded (rmax t) c -> count_value c = Some q ->
  raw_bounded (rmax t) (to_cr t c) /\ exists p, value (to_cr t c) = Some p /\ (p == q)%Q.
Proof.
  intros t [s z|r] q SR B V; pose proof SR as [W S]; cbn in *.
  - destruct B as [Is B]. injection V as <-. rewrite conv_int_id; auto; [|now apply abs_fits].
    pose proof (rmax_big t W). split; [split; cbn; lia|]. exists (inject_Z z). split; [|reflexivity].
    unfold value, f_of_int. cbn. f_equal. unfold inject_Z, Qdiv, Qmult. cbn. now rewrite Z.mul_1_r.
  - split; auto. exists q. split; auto. reflexivity.
Qed.

Lemma int_value : forall z, exists p, value (f_of_int z) = Some p /\ (p == inject_Z z)%Q.
Proof.
  intros z. unfold f_of_int. rewrite value_defined by (cbn; lia). eexists. split; [reflexivity|]. cbn [num den].
  change (inject_Z 1) with 1%Q. field.
Qed.

(** The result of an operation of the default policy has no minimal part. *)
Lemma io_rr_bounded : forall t op l r x, signed_rep t ->
  wf_args t (RR l r) -> p_arith (denote defaults) t op (RR l r) = Ok x -> raw_bounded (rmax t) x.
Proof.
  intros t op l r x SR WA H. pose proof SR as [W S]. rewrite io_rr in H.
  destruct (reduce t l ignore_signs_mode) as [l'|] eqn:R; [|discriminate]. cbn [bind] in H.
  destruct (reduce t r ignore_signs_mode) as [r'|] eqn:R'; [|discriminate]. cbn [bind] in H.
  destruct (p_arith safe t op (RR l' r')) as [w|] eqn:E; [|discriminate]. cbn [bind] in H.
  assert (WL : wf_raw t l') by (destruct (reduce_spec _ _ _ _ W (proj1 WA) R) as [K _]; exact K).
  assert (WR : wf_raw t r') by (destruct (reduce_spec _ _ _ _ W (proj2 WA) R') as [K _]; exact K).
  assert (WW : wf_raw t w) by exact (proj1 (denote_wf Safe) t op (RR l' r') w W (conj WL WR) E).
  destruct (reduce_spec _ _ _ _ W WW H) as [_ [RT _]].
  pose proof (reduces_bound _ _ _ RT) as [Bn Bd].
  assert (O : ok (reduce t w normalize_signs_mode)) by (now exists x).
  apply reduce_iff in O; auto. destruct O as [O|[O1 O2]]; [|split; lia].
  rewrite (reduce_undefined t w normalize_signs_mode) in H by auto. injection H as <-.
  pose proof (rmax_big t W). split; cbn [num den]; lia.
Qed.

Lemma io_result : forall t op l r x a b, signed_rep t -> raw_bounded (rmax t) l -> raw_bounded (rmax t) r ->
  value l = Some a -> value r = Some b -> p_arith (denote defaults) t op (RR l r) = Ok x ->
  raw_bounded (rmax t) x /\ same_value (value x) (exact op a b).
Proof.
  intros t op l r x a b SR BL BR VL VR H.
  assert (WA : wf_args t (RR l r)) by (split; now apply bounded_wf).
  pose proof SR as [W S]. split; [eapply io_rr_bounded; eauto|].
  pose proof (denote_exact_opt defaults t op (RR l r) x W S WA (or_intror (or_introl eq_refl)) H) as X.
  cbn [left_value right_value] in X. rewrite VL, VR in X. exact X.
Qed.

Lemma low_bounded : forall t f q, signed_rep t -> raw_bounded (rmax t) f -> value f = Some q ->
  Z.abs (low_num q) <= rmax t /\ low_den q <= rmax t.
Proof. intros t f q SR [B1 B2] V. destruct (reduce_low t f q SR B1 B2 V) as [s [_ [_ [A [B _]]]]]. auto. Qed.

Lemma low_mul_int : forall q n, Z.abs (low_num (q * inject_Z n)) <= Z.abs (low_num q * n) /\ low_den (q * inject_Z n) <= low_den q.
Proof.
  intros q n.
  assert (E : (inject_Z (low_num (q * inject_Z n)) / inject_Z (low_den (q * inject_Z n)) == inject_Z (low_num q * n) / inject_Z (low_den q))%Q).
  { rewrite low_value, inject_Z_mult. rewrite <- (low_value q) at 1. unfold Qdiv. ring. }
  pose proof (low_den_pos q) as P1. pose proof (low_den_pos (q * inject_Z n)) as P2.
  apply (proj1 (qdiv_eq (low_num (q * inject_Z n)) (low_den (q * inject_Z n)) (low_num q * n) (low_den q) ltac:(lia) ltac:(lia))) in E.
  pose proof (low_canonical (q * inject_Z n)) as G.
  set (a := low_num (q * inject_Z n)) in *. set (b := low_den (q * inject_Z n)) in *.
  assert (D : (b | low_den q)).
  { apply (Z.gauss _ a); [|now rewrite Z.gcd_comm]. exists (low_num q * n). lia. }
  destruct D as [k K]. assert (0 < k) by nia. rewrite K in *.
  assert (low_num q * n = a * k) by nia. split; [|nia].
  rewrite H0, Z.abs_mul. nia.
Qed.

Lemma cast_values : forall t from to c q n d r, signed_rep t -> wf_period from -> wf_period to ->
  is_factor from to n d -> n <= rmax t -> d <= rmax t -> count_bounded (rmax t) c -> count_value c = Some q ->
  duration_cast (denote defaults) t from to c = Some (Ok r) ->
  raw_bounded (rmax t) r /\ exists p, value r = Some p /\ (p == q * inject_Z n / inject_Z d)%Q.
Proof.
  intros t from to c q n d r SR WF WT IF NT DT BC V H. pose proof SR as [W S].
  pose proof (ratio_divide_is _ _ _ _ WF WT IF) as R. destruct IF as [[N N64] [[D D64] [G E]]].
  destruct (to_cr_bounded t c q SR BC V) as [BK [k [VK QK]]].
  assert (In : in_rep t n = true) by (apply abs_fits; auto; lia).
  assert (Id : in_rep t d = true) by (apply abs_fits; auto; lia).
  pose proof (rmax_big t W).
  destruct (int_value n) as [n' [VN QN]]. destruct (int_value d) as [d' [VD QD]].
  assert (BN : raw_bounded (rmax t) (f_of_int n)) by (split; cbn; lia).
  assert (BD : raw_bounded (rmax t) (f_of_int d)) by (split; cbn; lia).
  assert (D0 : ~ (inject_Z d == 0)%Q) by (apply iz_nz; lia).
  unfold duration_cast in H. rewrite R in H. cbn [pnum pden] in H. rewrite !conv_int_id in H by auto.
  apply some_inj in H.
  destruct (Z.eqb_spec n 1) as [E1|E1], (Z.eqb_spec d 1) as [E2|E2]; cbn [andb] in H; rewrite ?f_arith_self in H.
  - injection H as <-. split; auto. exists k. split; auto. rewrite E1, E2, QK. change (inject_Z 1) with 1%Q. field.
  - destruct (io_result t Divides _ _ r _ _ SR BK BD VK VD H) as [B X]. split; auto. cbn [exact] in X.
    destruct (Qeq_bool d' 0) eqn:Z0; [apply Qeq_bool_iff in Z0; rewrite QD in Z0; contradiction|].
    destruct (value r) as [p|]; [|contradiction]. cbn in X. exists p. split; auto. rewrite X, E1, QK, QD.
    change (inject_Z 1) with 1%Q. field. auto.
  - destruct (io_result t Multiplies _ _ r _ _ SR BK BN VK VN H) as [B X]. split; auto. cbn in X.
    destruct (value r) as [p|]; [|contradiction]. cbn in X. exists p. split; auto. rewrite X, E2, QK, QN.
    change (inject_Z 1) with 1%Q. field.
  - destruct (p_arith (denote defaults) t Multiplies (RR (to_cr t c) (f_of_int n))) as [m|] eqn:HM; [|discriminate].
    cbn [bind] in H. rewrite f_arith_self in H.
    destruct (io_result t Multiplies _ _ m _ _ SR BK BN VK VN HM) as [B X]. cbn in X.
    destruct (value m) as [p|] eqn:VM; [|contradiction]. cbn in X.
    destruct (io_result t Divides _ _ r _ _ SR B BD VM VD H) as [B' X']. split; auto. cbn [exact] in X'.
    destruct (Qeq_bool d' 0) eqn:Z0; [apply Qeq_bool_iff in Z0; rewrite QD in Z0; contradiction|].
    destruct (value r) as [p'|]; [|contradiction]. cbn in X'. exists p'. split; auto. rewrite X', X, QK, QD, QN. reflexivity.
Qed.

Theorem cast_iff : forall t from to c q n d, signed_rep t -> wf_period from -> wf_period to ->
  is_factor from to n d -> n <= rmax t -> d <= rmax t -> count_bounded (rmax t) c -> count_value c = Some q ->
  (exists r, duration_cast (denote defaults) t from to c = Some (Ok r)) <-> scale_fits (rmax t) q n d.
Proof.
  intros t from to c q n d SR WF WT IF NT DT BC V. pose proof SR as [W S].
  pose proof (ratio_divide_is _ _ _ _ WF WT IF) as R. destruct IF as [[N N64] [[D D64] [G E]]].
  destruct (to_cr_bounded t c q SR BC V) as [BK [k [VK QK]]].
  assert (In : in_rep t n = true) by (apply abs_fits; auto; lia).
  assert (Id : in_rep t d = true) by (apply abs_fits; auto; lia).
  pose proof (rmax_big t W) as RB.
  destruct (int_value n) as [n' [VN QN]]. destruct (int_value d) as [d' [VD QD]].
  assert (BN : raw_bounded (rmax t) (f_of_int n)) by (split; cbn; lia).
  assert (BD : raw_bounded (rmax t) (f_of_int d)) by (split; cbn; lia).
  assert (D0 : ~ (inject_Z d == 0)%Q) by (apply iz_nz; lia).
  pose proof (low_bounded t _ _ SR BK VK) as [LN LD].
  destruct (low_proper _ _ QK) as [K1 K2]. destruct (low_proper _ _ QN) as [N1 N2]. destruct (low_proper _ _ QD) as [D1 D2].
  destruct (low_int n) as [N3 N4]. destruct (low_int d) as [D3 D4].
  pose proof (low_den_pos q) as PQ. destruct (low_mul_int q n) as [M1 M2]. pose proof (low_den_pos (q * inject_Z n)) as PM.
  assert (ENM : enough (rmax t) Multiplies k n' <-> Z.abs (low_num q * n) <= rmax t).
  { unfold enough. rewrite K1, K2, N1, N2, N3, N4. lia. }
  unfold duration_cast. rewrite R. cbn [pnum pden]. rewrite !conv_int_id by auto. unfold scale_fits.
  destruct (Z.eqb_spec n 1) as [E1|E1], (Z.eqb_spec d 1) as [E2|E2]; cbn [andb]; rewrite ?f_arith_self.
  - split; [intros _|eauto]. subst n d. rewrite Z.mul_1_r in *. lia.
  - subst n.
    assert (Q1 : (q * inject_Z 1 == q)%Q) by (change (inject_Z 1) with 1%Q; ring).
    destruct (low_proper _ _ Q1) as [_ L1]. rewrite L1.
    pose proof (io_iff t Divides _ _ _ _ SR BK BD VK VD) as I.
    unfold enough in I. rewrite K1, K2, D1, D2, D3, D4 in I.
    assert (Z0 : ~ (d' == 0)%Q) by (now rewrite QD).
    split.
    + intros [r H]. apply some_inj in H. destruct (proj1 I (ex_intro _ r H)) as [X|X]; [contradiction|nia].
    + intros X. destruct (proj2 I) as [r H]; [right; nia|]. exists r. now rewrite H.
  - subst d. pose proof (io_iff t Multiplies _ _ _ _ SR BK BN VK VN) as I. rewrite ENM in I. split.
    + intros [r H]. apply some_inj in H. assert (X := proj1 I (ex_intro _ r H)). lia.
    + intros [X _]. destruct (proj2 I X) as [r H]. exists r. now rewrite H.
  - pose proof (io_iff t Multiplies _ _ _ _ SR BK BN VK VN) as I. rewrite ENM in I.
    assert (Z0 : ~ (d' == 0)%Q) by (now rewrite QD).
    assert (I2 : forall m, p_arith (denote defaults) t Multiplies (RR (to_cr t c) (f_of_int n)) = Ok m ->
      (exists r, p_arith (denote defaults) t Divides (RR m (f_of_int d)) = Ok r) <-> low_den (q * inject_Z n) * d <= rmax t).
    { intros m HM. destruct (io_result t Multiplies _ _ m _ _ SR BK BN VK VN HM) as [B X]. cbn in X.
      destruct (value m) as [p|] eqn:VM; [|contradiction]. cbn in X.
      assert (XQ : (p == q * inject_Z n)%Q) by (rewrite X, QK, QN; reflexivity).
      destruct (low_proper _ _ XQ) as [P1 P2].
      pose proof (low_bounded t _ _ SR B VM) as [LN' LD'].
      rewrite (io_iff t Divides _ _ _ _ SR B BD VM VD). unfold enough. rewrite P1, P2, D1, D2, D3, D4.
      split; [intros [?|?]; [contradiction|lia]|intros ?; right; lia]. }
    split.
    + intros [r H]. apply some_inj in H.
      destruct (p_arith (denote defaults) t Multiplies (RR (to_cr t c) (f_of_int n))) as [m|] eqn:HM; [|discriminate].
      cbn [bind] in H. rewrite f_arith_self in H. split; [apply I; eauto|]. apply (I2 m eq_refl). eauto.
    + intros [X1 X2]. destruct (proj2 I X1) as [m HM]. rewrite HM. cbn [bind]. rewrite f_arith_self.
      destruct (proj2 (I2 m HM) X2) as [r H]. exists r. now rewrite H.
Qed.

(** Both periods are multiples of the common period. *)
Lemma common_period_multiple : forall a b pc, wf_period a -> wf_period b -> common_period a b = Some pc ->
  exists n m, 0 < n /\ 0 < m /\ (inject_Z n / inject_Z 1 == period_value a / period_value pc)%Q /\
    (inject_Z m / inject_Z 1 == period_value b / period_value pc)%Q.
Proof.
  intros a b pc [[A1 [A2 _]] _] [[B1 [B2 _]] _] H. unfold common_period in H.
  assert (G : 0 < Z.gcd (pnum a) (pnum b)).
  { pose proof (Z.gcd_nonneg (pnum a) (pnum b)). assert (Z.gcd (pnum a) (pnum b) <> 0) by (intros X; apply Z.gcd_eq_0_l in X; lia). lia. }
  assert (L : 0 < Z.lcm (pden a) (pden b)).
  { pose proof (Z.lcm_nonneg (pden a) (pden b)).
    assert (Z.lcm (pden a) (pden b) <> 0) by (intros X; apply Z.lcm_eq_0 in X; lia). lia. }
  destruct (make_ratio_ok _ _ _ G L H) as [WP V]. pose proof (period_pos _ WP) as PP.
  destruct (Z.gcd_divide_l (pnum a) (pnum b)) as [x X]. destruct (Z.gcd_divide_r (pnum a) (pnum b)) as [y Y].
  destruct (Z.divide_lcm_l (pden a) (pden b)) as [u U]. destruct (Z.divide_lcm_r (pden a) (pden b)) as [v W].
  set (g := Z.gcd (pnum a) (pnum b)) in *. set (l := Z.lcm (pden a) (pden b)) in *. clearbody g l.
  assert (0 < x) by nia. assert (0 < y) by nia. assert (0 < u) by nia. assert (0 < v) by nia.
  exists (x * u), (y * v). repeat split; try nia; rewrite V; unfold period_value;
    change (inject_Z 1) with 1%Q; rewrite inject_Z_mult.
  - rewrite U at 1. rewrite X at 1. rewrite !inject_Z_mult. field. repeat split; apply iz_nz; lia.
  - rewrite W at 1. rewrite Y at 1. rewrite !inject_Z_mult. field. repeat split; apply iz_nz; lia.
Qed.

Lemma scale_int : forall t c q n, signed_rep t -> count_bounded (rmax t) c -> count_value c = Some q ->
  scale_fits (rmax t) q n 1 <-> Z.abs (low_num q * n) <= rmax t.
Proof.
  intros t c q n SR B V. unfold scale_fits. split; [tauto|]. intros H. split; auto.
  destruct (to_cr_bounded t c q SR B V) as [BK [k [VK QK]]]. pose proof (low_bounded t _ _ SR BK VK) as [_ LD].
  destruct (low_proper _ _ QK) as [_ E]. destruct (low_mul_int q n) as [_ M]. lia.
Qed.

Section Two.

  Variables (t : rep) (pl pr pc : period) (l r : count) (a b : Q) (n1 n2 : Z).
  Hypothesis SR : signed_rep t.
  Hypothesis WL : wf_period pl.
  Hypothesis WR : wf_period pr.
  Hypothesis CP : common_period pl pr = Some pc.
  Hypothesis F1 : is_factor pl pc n1 1.
  Hypothesis F2 : is_factor pr pc n2 1.
  Hypothesis N1 : n1 <= rmax t.
  Hypothesis N2 : n2 <= rmax t.
  Hypothesis BL : count_bounded (rmax t) l.
  Hypothesis BR : count_bounded (rmax t) r.
  Hypothesis VL : count_value l = Some a.
  Hypothesis VR : count_value r = Some b.

  Lemma two_casts : exists x y, duration_cast (denote defaults) t pl pc l = Some x /\ duration_cast (denote defaults) t pr pc r = Some y /\
    (ok x <-> Z.abs (low_num a * n1) <= rmax t) /\ (ok y <-> Z.abs (low_num b * n2) <= rmax t) /\
    (forall v, x = Ok v -> raw_bounded (rmax t) v /\ exists p, value v = Some p /\ (p == a * inject_Z n1)%Q) /\
    (forall v, y = Ok v -> raw_bounded (rmax t) v /\ exists p, value v = Some p /\ (p == b * inject_Z n2)%Q).
  Proof.
    pose proof (common_period_ok _ _ _ WL WR CP) as WC.
    assert (M1 : 1 <= rmax t) by (pose proof (rmax_big t (proj1 SR)); lia).
    pose proof (cast_iff t pl pc l a n1 1 SR WL WC F1 N1 M1 BL VL) as C1. rewrite (scale_int t l) in C1 by auto.
    pose proof (cast_iff t pr pc r b n2 1 SR WR WC F2 N2 M1 BR VR) as C2. rewrite (scale_int t r) in C2 by auto.
    pose proof (fun v => cast_values t pl pc l a n1 1 v SR WL WC F1 N1 M1 BL VL) as V1.
    pose proof (fun v => cast_values t pr pc r b n2 1 v SR WR WC F2 N2 M1 BR VR) as V2.
    assert (D1 : exists x, duration_cast (denote defaults) t pl pc l = Some x)
      by (unfold duration_cast; rewrite (ratio_divide_is _ _ _ _ WL WC F1); eauto).
    assert (D2 : exists y, duration_cast (denote defaults) t pr pc r = Some y)
      by (unfold duration_cast; rewrite (ratio_divide_is _ _ _ _ WR WC F2); eauto).
    destruct D1 as [x Hx], D2 as [y Hy]. rewrite Hx in *. rewrite Hy in *. exists x, y. repeat split; auto.
    - intros [v ->]. apply C1. eauto.
    - intros H. destruct (proj2 C1 H) as [v E]. exists v. congruence.
    - intros [v ->]. apply C2. eauto.
    - intros H. destruct (proj2 C2 H) as [v E]. exists v. congruence.
    - subst x. apply (V1 v eq_refl).
    - subst x. apply (V1 v eq_refl).
    - subst x. destruct (V1 v eq_refl) as [_ [p [P Q]]]. exists p. split; auto. rewrite Q. change (inject_Z 1) with 1%Q. field.
    - subst y. apply (V2 v eq_refl).
    - subst y. apply (V2 v eq_refl).
    - subst y. destruct (V2 v eq_refl) as [_ [p [P Q]]]. exists p. split; auto. rewrite Q. change (inject_Z 1) with 1%Q. field.
  Qed.

  Lemma two_arith_iff : forall op, (exists x, duration_arith (denote defaults) t op pl pr l r = Some (pc, Ok x)) <->
    Z.abs (low_num a * n1) <= rmax t /\ Z.abs (low_num b * n2) <= rmax t /\
    enough (rmax t) op (a * inject_Z n1) (b * inject_Z n2).
  Proof.
    intros op. destruct two_casts as [x [y [Hx [Hy [O1 [O2 [V1 V2]]]]]]].
    unfold duration_arith. rewrite CP, Hx, Hy. rewrite <- O1, <- O2.
    assert (K : forall u v, x = Ok u -> y = Ok v -> (exists z, f_arith (denote defaults) t t op (RR u v) = Ok z) <->
      enough (rmax t) op (a * inject_Z n1) (b * inject_Z n2)).
    { intros u v Hu Hv. destruct (V1 u Hu) as [B1 [p [P1 Q1]]]. destruct (V2 v Hv) as [B2 [q [P2 Q2]]].
      rewrite f_arith_self, (io_iff t op u v p q SR B1 B2 P1 P2). now apply enough_proper. }
    split.
    - intros [z H]. injection H as H. destruct x as [u|]; [|discriminate]. cbn [bind] in H.
      destruct y as [v|]; [|discriminate]. cbn [bind] in H. repeat split; try (eexists; reflexivity).
      apply (K u v eq_refl eq_refl). eauto.
    - intros [[u ->] [[v ->] E]]. destruct (proj2 (K u v eq_refl eq_refl) E) as [z H]. exists z. cbn [bind]. now rewrite H.
  Qed.

  Lemma two_cmp_iff : forall (f : policy -> rep -> period -> period -> count -> count -> option (res bool)) op,
    (forall p x y, duration_cast p t pl pc l = Some x -> duration_cast p t pr pc r = Some y ->
       f p t pl pr l r = Some (do a <- x; do b <- y; f_cmp p t t op (RR a b))) ->
    (exists v, f (denote defaults) t pl pr l r = Some (Ok v)) <->
    Z.abs (low_num a * n1) <= rmax t /\ Z.abs (low_num b * n2) <= rmax t /\
    common_fits (rmax t) (a * inject_Z n1) (b * inject_Z n2).
  Proof.
    intros f op Hf. destruct two_casts as [x [y [Hx [Hy [O1 [O2 [V1 V2]]]]]]].
    rewrite (Hf _ _ _ Hx Hy). rewrite <- O1, <- O2.
    assert (K : forall u v, x = Ok u -> y = Ok v -> (exists z, f_cmp (denote defaults) t t op (RR u v) = Ok z) <->
      common_fits (rmax t) (a * inject_Z n1) (b * inject_Z n2)).
    { intros u v Hu Hv. destruct (V1 u Hu) as [B1 [p [P1 Q1]]]. destruct (V2 v Hv) as [B2 [q [P2 Q2]]].
      rewrite f_cmp_self, (io_cmp_iff t op u v p q SR B1 B2 P1 P2). now apply common_fits_proper. }
    split.
    - intros [z H]. injection H as H. destruct x as [u|]; [|discriminate]. cbn [bind] in H.
      destruct y as [v|]; [|discriminate]. cbn [bind] in H. repeat split; try (eexists; reflexivity);
      apply (K u v eq_refl eq_refl); eauto.
    - intros [[u ->] [[v ->] E]]. destruct (proj2 (K u v eq_refl eq_refl) E) as [z H]. exists z. cbn [bind]. now rewrite H.
  Qed.

  Lemma two_lt_iff : (exists v, duration_lt (denote defaults) t pl pr l r = Some (Ok v)) <->
    Z.abs (low_num a * n1) <= rmax t /\ Z.abs (low_num b * n2) <= rmax t /\
    common_fits (rmax t) (a * inject_Z n1) (b * inject_Z n2).
  Proof. apply (two_cmp_iff duration_lt Lt). intros p x y Hx Hy. unfold duration_lt. now rewrite CP, Hx, Hy. Qed.

  Lemma two_eq_iff : (exists v, duration_eq (denote defaults) t pl pr l r = Some (Ok v)) <->
    Z.abs (low_num a * n1) <= rmax t /\ Z.abs (low_num b * n2) <= rmax t /\
    common_fits (rmax t) (a * inject_Z n1) (b * inject_Z n2).
  Proof. apply (two_cmp_iff duration_eq Eq). intros p x y Hx Hy. unfold duration_eq. now rewrite CP, Hx, Hy. Qed.

End Two.

(** ... and it is the greatest such period. *)
Lemma common_period_greatest : forall a b pc p n m, wf_period a -> wf_period b -> common_period a b = Some pc -> wf_period p ->
  (inject_Z n * period_value p == period_value a)%Q -> (inject_Z m * period_value p == period_value b)%Q ->
  exists k, 0 < k /\ (inject_Z k * period_value p == period_value pc)%Q.
Proof.
  intros a b pc p n m [[A1 [A2 A3]] _] [[B1 [B2 B3]] _] H [[P1 [P2 P3]] _] En Em. unfold common_period in H.
  assert (G : 0 < Z.gcd (pnum a) (pnum b)).
  { pose proof (Z.gcd_nonneg (pnum a) (pnum b)). assert (Z.gcd (pnum a) (pnum b) <> 0) by (intros X; apply Z.gcd_eq_0_l in X; lia). lia. }
  assert (L : 0 < Z.lcm (pden a) (pden b)).
  { pose proof (Z.lcm_nonneg (pden a) (pden b)).
    assert (Z.lcm (pden a) (pden b) <> 0) by (intros X; apply Z.lcm_eq_0 in X; lia). lia. }
  destruct (make_ratio_ok _ _ _ G L H) as [WP V].
  assert (D : forall z c, 0 < pnum c -> 0 < pden c -> Z.gcd (pnum c) (pden c) = 1 ->
    (inject_Z z * period_value p == period_value c)%Q -> (pnum p | pnum c) /\ (pden c | pden p)).
  { intros z c C1 C2 C3 E. unfold period_value in E.
    assert (E' : (inject_Z (z * pnum p) / inject_Z (pden p) == inject_Z (pnum c) / inject_Z (pden c))%Q)
      by (rewrite <- E, inject_Z_mult; field; apply iz_nz; lia).
    apply (proj1 (qdiv_eq (z * pnum p) (pden p) (pnum c) (pden c) ltac:(lia) ltac:(lia))) in E'. split.
    - apply (Z.gauss _ (pden p)); [|exact P3]. exists (z * pden c). lia.
    - apply (Z.gauss _ (pnum c)); [|now rewrite Z.gcd_comm]. exists (z * pnum p). lia. }
  destruct (D n a A1 A2 A3 En) as [X1 X2]. destruct (D m b B1 B2 B3 Em) as [Y1 Y2].
  destruct (Z.gcd_greatest _ _ _ X1 Y1) as [u U]. destruct (Z.lcm_least _ _ _ X2 Y2) as [v W].
  set (g := Z.gcd (pnum a) (pnum b)) in *. set (l := Z.lcm (pden a) (pden b)) in *. clearbody g l.
  assert (0 < u) by nia. assert (0 < v) by nia.
  exists (u * v). split; [nia|]. rewrite V. unfold period_value. rewrite U, W, !inject_Z_mult.
  field. repeat split; apply iz_nz; lia.
Qed.

Lemma low_scaled_int : forall z n, low_num (inject_Z z * inject_Z n) = z * n /\ low_den (inject_Z z * inject_Z n) = 1.
Proof.
  intros z n. destruct (low_int (z * n)) as [A B].
  assert (E : (inject_Z z * inject_Z n == inject_Z (z * n))%Q) by (now rewrite inject_Z_mult).
  destruct (low_proper _ _ E) as [-> ->]. auto.
Qed.
