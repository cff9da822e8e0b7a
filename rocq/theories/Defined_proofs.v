(** When the operations of the default policy are defined. *)

From Coq Require Import ZArith QArith Qreduction List Bool Lia.
From Coq Require Qcanon.
From Verif Require Import Machine Raw Ops Spec Fraction Tight_spec Mixed_spec Defined_spec.
From Verif Require Import Machine_proofs Value_proofs Ops_proofs Algebra_proofs Cmp_proofs Total_proofs Fraction_proofs Tight_proofs Laws_proofs Literals_proofs.
Open Scope Z_scope.

Definition ok {A} (x : res A) : Prop := exists a, x = Ok a.
Definition usign (s : Z) : Prop := s = 1 \/ s = -1.

Lemma low_den_pos : forall q, 0 < low_den q.
Proof. reflexivity. Qed.

Lemma low_canonical : forall q, Z.gcd (low_num q) (low_den q) = 1.
Proof.
  intros q. unfold low_num, low_den. apply Qcanon.Qred_iff. apply Qred_complete, Qred_correct.
Qed.

Lemma low_value : forall q, (inject_Z (low_num q) / inject_Z (low_den q) == q)%Q.
Proof.
  intros q. rewrite <- (Qred_correct q) at 3. unfold low_num, low_den.
  destruct (Qred q) as [n d]. cbn [Qnum Qden]. rewrite qdiv_form by discriminate.
  cbn [Z.sgn Z.abs Z.to_pos]. rewrite Z.mul_1_r. reflexivity.
Qed.

Lemma low_proper : forall a b, (a == b)%Q -> low_num a = low_num b /\ low_den a = low_den b.
Proof. intros a b H. unfold low_num, low_den. now rewrite (Qred_complete _ _ H). Qed.

Lemma low_zero : forall q, (q == 0)%Q <-> low_num q = 0.
Proof.
  intros q. split; intros H.
  - apply low_proper in H as [-> _]. reflexivity.
  - rewrite <- low_value, H. unfold Qdiv. ring.
Qed.

Lemma low_int : forall z, low_num (inject_Z z) = z /\ low_den (inject_Z z) = 1.
Proof.
  intros z. unfold low_num, low_den. rewrite Qcanon.Qred_identity; [now split|]. cbn [Qnum Qden inject_Z]. apply Z.gcd_1_r.
Qed.

Lemma reduce_low : forall t l a, signed_rep t -> Z.abs (num l) <= rmax t -> Z.abs (den l) <= rmax t -> value l = Some a ->
  exists s, usign s /\ reduce t l ignore_signs_mode = Ok (mkRaw (s * low_num a) (s * low_den a)) /\
    Z.abs (low_num a) <= rmax t /\ low_den a <= rmax t /\ (0 < den l -> s = 1).
Proof.
  intros t l a SR BN BD V. pose proof SR as [W S].
  assert (WL : wf_raw t l) by (split; now apply abs_fits).
  assert (D : den l <> 0) by (intros E; rewrite value_undefined in V by auto; discriminate).
  destruct (reduce_total t l ignore_signs_mode) as [r R]; auto.
  destruct (reduce_spec _ _ _ _ W WL R) as [WR [RT _]].
  pose proof (reduces_bound _ _ _ RT) as [Bn Bd].
  pose proof (reduces_same_value _ _ _ RT) as SV. rewrite V in SV.
  pose proof (reduces_den_sign _ _ RT) as SG.
  destruct RT as [[? _]|[_ [g [G0 [N1 [D1 [CO [_ GP]]]]]]]]; [contradiction|].
  assert (DR : den r <> 0) by nia.
  set (s := Z.sgn (den r)).
  assert (SU : usign s) by (unfold usign, s; destruct (den r); auto; lia).
  assert (EQ : mkRaw (s * num r) (s * den r) = mkRaw (low_num a) (low_den a)).
  { apply canonical_unique.
    - right. cbn [num den]. split; [unfold s; destruct (den r); cbn; lia|].
      destruct SU as [-> | ->]; rewrite ?Z.mul_1_l; auto.
      replace (-1 * num r) with (- num r) by ring. replace (-1 * den r) with (- den r) by ring.
      now rewrite Z.gcd_opp_l, Z.gcd_opp_r.
    - right. cbn [num den]. split; [apply low_den_pos|apply low_canonical].
    - rewrite (value_defined (mkRaw (low_num a) _)) by discriminate. cbn [num den].
      rewrite value_defined in SV by auto. rewrite value_defined by (cbn [den]; destruct SU as [-> | ->]; lia).
      cbn [num den]. cbn [same_value] in *. rewrite low_value, <- SV.
      apply qdiv_eq; auto; [destruct SU as [-> | ->]; lia|ring]. }
  injection EQ as EN ED.
  exists s. repeat split; auto.
  - rewrite R. f_equal. rewrite <- EN, <- ED. destruct r as [n d]. cbn [num den] in *.
    f_equal; destruct SU as [E | E]; rewrite E; ring.
  - rewrite <- EN. destruct SU as [E | E]; rewrite E; lia.
  - rewrite <- ED. destruct SU as [E | E]; rewrite E; lia.
  - intros P. unfold s. rewrite SG. now apply Z.sgn_pos_iff.
Qed.

Lemma reduce_iff : forall t v, signed_rep t -> wf_raw t v ->
  ok (reduce t v normalize_signs_mode) <-> den v = 0 \/ Z.abs (num v) <= rmax t /\ Z.abs (den v) <= rmax t.
Proof.
  intros t v [W S] WV. split.
  - intros [r R]. destruct (reduce_spec _ _ _ _ W WV R) as [_ [_ B]].
    destruct (Z.eq_dec (den v) 0); auto.
  - intros [Z0|[A B]].
    + exists (mkRaw 0 0). now apply reduce_undefined.
    + now apply reduce_total.
Qed.

Lemma arith_iff : forall t x, rsigned t = true -> arith t x = if in_rep t x then Ok x else UB Overflow.
Proof. intros t x S. unfold arith. now rewrite S. Qed.

Lemma range_iff : forall t x, signed_rep t -> in_rep t x = true <-> - rmax t - 1 <= x <= rmax t.
Proof. intros t x [W S]. rewrite in_rep_iff, (rmin_rmax_signed t S). tauto. Qed.

(** The first half of the safe operations between two fractions. *)
Lemma common_run : forall A t s1 n1 d1 s2 n2 d2 (k : Z -> Z -> Z -> res A), signed_rep t -> usign s1 -> usign s2 ->
  0 < d1 <= rmax t -> 0 < d2 <= rmax t ->
  let L := Z.lcm d1 d2 in
  (do lcm <- std_lcm t (s1 * d1) (s2 * d2);
   do a <- m_div t lcm (s1 * d1);
   do a <- m_mul t a (s1 * n1);
   do b <- m_div t lcm (s2 * d2);
   do b <- m_mul t b (s2 * n2);
   k lcm a b) =
  if L <=? rmax t then do a <- arith t (n1 * (L / d1)); do b <- arith t (n2 * (L / d2)); k L a b
  else UB LibPrecond.
Proof.
  intros A t s1 n1 d1 s2 n2 d2 k SR U1 U2 B1 B2 L.
  assert (LC : Z.lcm (s1 * d1) (s2 * d2) = L).
  { unfold L. destruct U1 as [-> | ->], U2 as [-> | ->]; rewrite ?Z.mul_1_l;
      try (replace (-1 * d1) with (- d1) by ring); try (replace (-1 * d2) with (- d2) by ring);
      rewrite ?Z.lcm_opp_l, ?Z.lcm_opp_r; auto. }
  assert (LP : 0 < L).
  { pose proof (Z.lcm_nonneg d1 d2). assert (L <> 0); [|unfold L in *; lia].
    unfold L. intros E. apply Z.lcm_eq_0 in E. lia. }
  unfold std_lcm. rewrite LC.
  assert (F1 : in_rep t (Z.abs (s1 * d1)) = true) by (apply range_iff; auto; destruct U1 as [-> | ->]; lia).
  assert (F2 : in_rep t (Z.abs (s2 * d2)) = true) by (apply range_iff; auto; destruct U2 as [-> | ->]; lia).
  rewrite F1, F2. cbn [andb].
  destruct (Z.leb_spec L (rmax t)) as [LE|GT].
  2:{ replace (in_rep t L) with false; [reflexivity|]. symmetry. apply not_true_is_false. rewrite range_iff by auto. lia. }
  assert (F3 : in_rep t L = true) by (apply range_iff; auto; lia). rewrite F3. cbn [bind].
  assert (V1 : (d1 | L)) by apply Z.divide_lcm_l. assert (V2 : (d2 | L)) by apply Z.divide_lcm_r.
  destruct V1 as [c1 C1], V2 as [c2 C2]. clearbody L.
  assert (Q1 : L / d1 = c1) by (rewrite C1; apply Z.div_mul; lia).
  assert (Q2 : L / d2 = c2) by (rewrite C2; apply Z.div_mul; lia).
  assert (K1 : m_div t L (s1 * d1) = Ok (s1 * c1)).
  { apply exec_quot; auto; [destruct U1 as [-> | ->]; lia|destruct U1 as [-> | ->]; rewrite C1; ring|].
    destruct U1 as [-> | ->]; nia. }
  assert (K2 : m_div t L (s2 * d2) = Ok (s2 * c2)).
  { apply exec_quot; auto; [destruct U2 as [-> | ->]; lia|destruct U2 as [-> | ->]; rewrite C2; ring|].
    destruct U2 as [-> | ->]; nia. }
  rewrite K1, Q1, Q2. cbn [bind]. unfold m_mul.
  replace (s1 * c1 * (s1 * n1)) with (n1 * c1) by (destruct U1 as [-> | ->]; ring).
  destruct (arith t (n1 * c1)); [cbn [bind]|reflexivity]. rewrite K2. cbn [bind].
  replace (s2 * c2 * (s2 * n2)) with (n2 * c2) by (destruct U2 as [-> | ->]; ring). reflexivity.
Qed.

Lemma io_rr : forall t op l r, p_arith (denote defaults) t op (RR l r) =
  do l' <- reduce t l ignore_signs_mode;
  do r' <- reduce t r ignore_signs_mode;
  do v <- p_arith safe t op (RR l' r');
  reduce t v normalize_signs_mode.
Proof. intros t [] l r; reflexivity. Qed.
Lemma io_ri : forall t op l z, p_arith (denote defaults) t op (RI l z) =
  do l' <- reduce t l ignore_signs_mode;
  do v <- p_arith safe t op (RI l' z);
  reduce t v normalize_signs_mode.
Proof. intros t [] l r; reflexivity. Qed.
Lemma io_ir : forall t op z r, p_arith (denote defaults) t op (IR z r) =
  do r' <- reduce t r ignore_signs_mode;
  do v <- p_arith safe t op (IR z r');
  reduce t v normalize_signs_mode.
Proof. intros t [] l r; reflexivity. Qed.
Lemma io_cmp_rr : forall t op l r, p_cmp (denote defaults) t op (RR l r) =
  do l' <- reduce t l ignore_signs_mode;
  do r' <- reduce t r ignore_signs_mode;
  p_cmp safe t op (RR l' r').
Proof. intros t [] l r; reflexivity. Qed.

Lemma not_ok_ub : forall A u, ~ ok (UB u : res A).
Proof. intros A u [a H]. discriminate. Qed.

Lemma over_low : forall a b, over a (least_den a b) = low_num a * (Z.lcm (low_den a) (low_den b) / low_den a) /\
  over b (least_den a b) = low_num b * (Z.lcm (low_den a) (low_den b) / low_den b).
Proof. now split. Qed.

Lemma safe_low_iff : forall t op s1 s2 a b, signed_rep t -> usign s1 -> usign s2 ->
  Z.abs (low_num a) <= rmax t -> low_den a <= rmax t -> Z.abs (low_num b) <= rmax t -> low_den b <= rmax t ->
  ok (do v <- p_arith safe t op (RR (mkRaw (s1 * low_num a) (s1 * low_den a)) (mkRaw (s2 * low_num b) (s2 * low_den b)));
      reduce t v normalize_signs_mode) <-> enough (rmax t) op a b.
Proof.
  intros t op s1 s2 a b SR U1 U2 Na Da Nb Db. pose proof SR as [W S].
  pose proof (low_den_pos a) as Pa. pose proof (low_den_pos b) as Pb.
  assert (CR : forall A (k : Z -> Z -> Z -> res A), _) by
    (intros A k; exact (common_run A t s1 (low_num a) (low_den a) s2 (low_num b) (low_den b) k SR U1 U2 (conj Pa Da) (conj Pb Db))).
  cbv zeta in CR. fold (least_den a b) in CR.
  fold (over a (least_den a b)) (over b (least_den a b)) in CR.
  assert (LP : 0 < least_den a b).
  { pose proof (Z.lcm_nonneg (low_den a) (low_den b)). assert (least_den a b <> 0); [|unfold least_den in *; lia].
    unfold least_den. intros E. apply Z.lcm_eq_0 in E. lia. }
  destruct op; cbn [p_arith safe p_plus_rr p_minus_rr p_multiplies_rr p_divides_rr p_modulus_rr enough].
  - unfold safe_plus_rr. cbn [num den]. rewrite (CR _ (fun m x y => do n <- m_add t x y; Ok (mkRaw n m))). clear CR.
    unfold common_fits. set (L := least_den a b) in *. set (x := over a L). set (y := over b L).
    destruct (Z.leb_spec L (rmax t)); [|split; [intros [? ?]; discriminate|lia]].
    rewrite !arith_iff by auto. pose proof (range_iff t x SR) as RX. pose proof (range_iff t y SR) as RY.
    destruct (in_rep t x); cbn [bind]; [|split; [intros [? ?]; discriminate|intros K; assert (false = true) by tauto; discriminate]].
    destruct (in_rep t y); cbn [bind]; [|split; [intros [? ?]; discriminate|intros K; assert (false = true) by tauto; discriminate]].
    unfold m_add. rewrite arith_iff by auto. pose proof (range_iff t (x + y) SR) as RS.
    destruct (in_rep t (x + y)) eqn:IS; cbn [bind].
    + rewrite reduce_iff; auto; [|split; auto; apply range_iff; auto; cbn [den]; lia].
      cbn [num den]. rewrite (Z.abs_eq L) by lia. assert (L <> 0) by lia. tauto.
    + split; [intros [? ?]; discriminate|]. intros [_ K]. assert (false = true); [|discriminate]. apply RS. lia.
  - unfold safe_minus_rr. cbn [num den]. rewrite (CR _ (fun m x y => do n <- m_sub t x y; Ok (mkRaw n m))). clear CR.
    unfold common_fits. set (L := least_den a b) in *. set (x := over a L). set (y := over b L).
    destruct (Z.leb_spec L (rmax t)); [|split; [intros [? ?]; discriminate|lia]].
    rewrite !arith_iff by auto. pose proof (range_iff t x SR) as RX. pose proof (range_iff t y SR) as RY.
    destruct (in_rep t x); cbn [bind]; [|split; [intros [? ?]; discriminate|intros K; assert (false = true) by tauto; discriminate]].
    destruct (in_rep t y); cbn [bind]; [|split; [intros [? ?]; discriminate|intros K; assert (false = true) by tauto; discriminate]].
    unfold m_sub. rewrite arith_iff by auto. pose proof (range_iff t (x - y) SR) as RS.
    destruct (in_rep t (x - y)) eqn:IS; cbn [bind].
    + rewrite reduce_iff; auto; [|split; auto; apply range_iff; auto; cbn [den]; lia].
      cbn [num den]. rewrite (Z.abs_eq L) by lia. assert (L <> 0) by lia. tauto.
    + split; [intros [? ?]; discriminate|]. intros [_ K]. assert (false = true); [|discriminate]. apply RS. lia.
  - unfold safe_multiplies_rr. cbn [num den]. unfold m_mul. rewrite !arith_iff by auto.
    replace (s1 * low_num a * (s2 * low_num b)) with (s1 * s2 * (low_num a * low_num b)) by ring.
    replace (s1 * low_den a * (s2 * low_den b)) with (s1 * s2 * (low_den a * low_den b)) by ring.
    assert (U : usign (s1 * s2)) by (destruct U1 as [-> | ->], U2 as [-> | ->]; unfold usign; lia).
    set (s := s1 * s2) in *. clearbody s. set (x := low_num a * low_num b). set (y := low_den a * low_den b).
    assert (YP : 0 < y) by (unfold y; nia). clearbody x y.
    pose proof (range_iff t (s * x) SR) as RX. pose proof (range_iff t (s * y) SR) as RY.
    destruct (in_rep t (s * x)) eqn:IX; cbn [bind].
    + destruct (in_rep t (s * y)) eqn:IY; cbn [bind].
      * rewrite reduce_iff; auto; [|now split]. cbn [num den].
        destruct U as [-> | ->]; lia.
      * split; [intros [? ?]; discriminate|]. intros [_ K]. assert (false = true); [|discriminate]. apply RY. destruct U as [-> | ->]; lia.
    + split; [intros [? ?]; discriminate|]. intros [K _]. assert (false = true); [|discriminate]. apply RX. destruct U as [-> | ->]; lia.
  - unfold safe_divides_rr. cbn [num den]. unfold m_mul. rewrite !arith_iff by auto. rewrite low_zero.
    replace (s1 * low_num a * (s2 * low_den b)) with (s1 * s2 * (low_num a * low_den b)) by ring.
    replace (s1 * low_den a * (s2 * low_num b)) with (s1 * s2 * (low_den a * low_num b)) by ring.
    assert (U : usign (s1 * s2)) by (destruct U1 as [-> | ->], U2 as [-> | ->]; unfold usign; lia).
    set (s := s1 * s2) in *. clearbody s.
    assert (ZB : low_num b = 0 -> low_den b = 1).
    { intros E. pose proof (low_canonical b) as C. rewrite E in C. rewrite Z.gcd_0_l in C. lia. }
    assert (ZY : low_num b = 0 <-> low_den a * low_num b = 0) by nia.
    assert (ZX : low_num b = 0 -> Z.abs (low_num a * low_den b) <= rmax t).
    { intros E. rewrite (ZB E), Z.mul_1_r. auto. }
    set (x := low_num a * low_den b) in *. set (y := low_den a * low_num b) in *. clearbody x y.
    pose proof (range_iff t (s * x) SR) as RX. pose proof (range_iff t (s * y) SR) as RY.
    assert (SX : Z.abs (s * x) = Z.abs x) by (destruct U as [-> | ->]; lia).
    assert (SY : Z.abs (s * y) = Z.abs y) by (destruct U as [-> | ->]; lia).
    assert (S0 : s * y = 0 <-> y = 0) by (destruct U as [-> | ->]; lia).
    destruct (in_rep t (s * x)) eqn:IX; cbn [bind].
    + destruct (in_rep t (s * y)) eqn:IY; cbn [bind].
      * rewrite reduce_iff; auto; [|now split]. cbn [num den]. rewrite SX, SY. tauto.
      * split; [intros [? ?]; discriminate|]. intros K. assert (false = true); [|discriminate]. apply RY. lia.
    + split; [intros [? ?]; discriminate|]. intros K. assert (false = true); [|discriminate]. apply RX. lia.
  - unfold safe_modulus_rr. cbn [num den]. rewrite (CR _ (fun m x y => do n <- m_rem t x y; Ok (mkRaw n m))). clear CR.
    assert (ZB : (b == 0)%Q <-> over b (least_den a b) = 0).
    { rewrite low_zero. unfold over. assert (least_den a b / low_den b <> 0); [|nia].
      assert (V : (low_den b | least_den a b)) by apply Z.divide_lcm_r. destruct V as [c V]. rewrite V.
      rewrite Z.div_mul by lia. nia. }
    rewrite ZB. unfold common_fits. set (L := least_den a b) in *. set (x := over a L) in *. set (y := over b L) in *.
    destruct (Z.leb_spec L (rmax t)); [|split; [intros [? ?]; discriminate|lia]].
    rewrite !arith_iff by auto. pose proof (range_iff t x SR) as RX. pose proof (range_iff t y SR) as RY.
    destruct (in_rep t x) eqn:IX; cbn [bind]; [|split; [intros [? ?]; discriminate|intros K; assert (false = true) by tauto; discriminate]].
    destruct (in_rep t y) eqn:IY; cbn [bind]; [|split; [intros [? ?]; discriminate|intros K; assert (false = true) by tauto; discriminate]].
    unfold m_rem. destruct (Z.eqb_spec y 0) as [Y0|Y0].
    { cbn [bind]. split; [intros [? ?]; discriminate|tauto]. }
    rewrite arith_iff by auto. pose proof (range_iff t (Z.quot x y) SR) as RQ.
    assert (QB : in_rep t (Z.quot x y) = true <-> ~ (x = - rmax t - 1 /\ y = -1)).
    { rewrite RQ. apply proj1 in RX. specialize (RX eq_refl). pose proof (rmax_big t W).
      pose proof (abs_quot_le x y Y0) as AQ. split.
      - intros K [X1 Y1]. subst y. rewrite Y1, X1 in K. change (-1) with (- (1)) in K at 2. rewrite Z.quot_opp_r, Z.quot_1_r in K; lia.
      - intros K. destruct (Z.eq_dec x (- rmax t - 1)) as [X1|X1]; [|lia].
        destruct (Z.eq_dec y 1) as [Y1|Y1]; [rewrite Y1, Z.quot_1_r; lia|].
        assert (YA : 2 <= Z.abs y) by lia.
        pose proof (Z.quot_abs x y Y0) as E. rewrite Z.quot_div_nonneg in E by lia.
        assert (Z.abs x / Z.abs y <= Z.abs x / 2) by (apply Z.div_le_compat_l; lia).
        assert (Z.abs x / 2 < rmax t) by (apply Z.div_lt_upper_bound; lia). lia. }
    destruct (in_rep t (Z.quot x y)) eqn:IQ; cbn [bind].
    + rewrite reduce_iff; auto.
      * cbn [num den]. assert (Z.abs (Z.rem x y) <= rmax t).
        { pose proof (abs_rem_le x y). apply proj1 in RX. specialize (RX eq_refl).
          destruct (Z.eq_dec x (- rmax t - 1)) as [X1|X1]; [|lia].
          pose proof (Z.rem_bound_abs x y Y0). apply proj1 in RY. specialize (RY eq_refl). lia. }
        rewrite (Z.abs_eq L) by lia. tauto.
      * split; cbn [num den]; [|apply range_iff; auto; lia].
        pose proof (rem_between x y). apply range_iff; auto. apply proj1 in RX. specialize (RX eq_refl). pose proof (rmax_big t W). lia.
    + split; [intros [? ?]; discriminate|]. intros [_ [_ K]]. apply QB in K. discriminate.
Qed.

Theorem io_iff : forall t op l r a b, signed_rep t -> raw_bounded (rmax t) l -> raw_bounded (rmax t) r ->
  value l = Some a -> value r = Some b ->
  (exists x, p_arith (denote defaults) t op (RR l r) = Ok x) <-> enough (rmax t) op a b.
Proof.
  intros t op l r a b SR [Ln Ld] [Rn Rd] VA VB. rewrite io_rr.
  destruct (reduce_low t l a) as [s1 [U1 [-> [A1 [A2 _]]]]]; auto.
  destruct (reduce_low t r b) as [s2 [U2 [-> [B1 [B2 _]]]]]; auto. cbn [bind].
  now apply safe_low_iff.
Qed.

Lemma over_int_r : forall a z, let b := inject_Z z in
  least_den a b = low_den a /\ over a (least_den a b) = low_num a /\ over b (least_den a b) = z * low_den a.
Proof.
  intros a z b. pose proof (low_den_pos a). destruct (low_int z) as [N D]. fold b in N, D.
  assert (E : least_den a b = low_den a) by (unfold least_den; rewrite D, Z.lcm_1_r; lia).
  rewrite E. unfold over. rewrite N, D, Z.div_same, Z.div_1_r by lia. repeat split; ring.
Qed.
Lemma over_int_l : forall a z, let b := inject_Z z in
  least_den b a = low_den a /\ over a (least_den b a) = low_num a /\ over b (least_den b a) = z * low_den a.
Proof.
  intros a z b. unfold least_den. rewrite Z.lcm_comm. apply over_int_r.
Qed.

Ltac step_arith t SR :=
  match goal with
  | |- context [arith t ?x] =>
      rewrite (arith_iff t x) by (apply SR);
      let R := fresh "R" in let I := fresh "I" in
      pose proof (range_iff t x SR) as R; destruct (in_rep t x) eqn:I; cbn [bind];
      [apply proj1 in R; specialize (R eq_refl)
      |split; [intros [? ?]; discriminate|
        intros ?K; exfalso; assert (false = true); [apply R; clear R|discriminate]]]
  end.

Lemma quot_range : forall t x y, signed_rep t -> - rmax t - 1 <= x <= rmax t -> y <> 0 ->
  in_rep t (Z.quot x y) = true <-> ~ (x = - rmax t - 1 /\ y = -1).
Proof.
  intros t x y SR RX Y0. pose proof SR as [W S]. rewrite range_iff by auto. pose proof (rmax_big t W).
  pose proof (abs_quot_le x y Y0) as AQ. split.
  - intros K [X1 Y1]. subst y. rewrite X1 in K. change (-1) with (- (1)) in K at 2. rewrite Z.quot_opp_r, Z.quot_1_r in K; lia.
  - intros K. destruct (Z.eq_dec x (- rmax t - 1)) as [X1|X1]; [|lia].
    destruct (Z.eq_dec y 1) as [Y1|Y1]; [rewrite Y1, Z.quot_1_r; lia|].
    assert (YA : 2 <= Z.abs y) by lia.
    pose proof (Z.quot_abs x y Y0) as E. rewrite Z.quot_div_nonneg in E by lia.
    assert (Z.abs x / Z.abs y <= Z.abs x / 2) by (apply Z.div_le_compat_l; lia).
    assert (Z.abs x / 2 < rmax t) by (apply Z.div_lt_upper_bound; lia). lia.
Qed.

Lemma rem_range : forall t x y, signed_rep t -> - rmax t - 1 <= x <= rmax t -> - rmax t - 1 <= y <= rmax t -> y <> 0 ->
  Z.abs (Z.rem x y) <= rmax t.
Proof.
  intros t x y SR RX RY Y0. pose proof (abs_rem_le x y).
  destruct (Z.eq_dec x (- rmax t - 1)) as [X1|X1]; [|lia]. pose proof (Z.rem_bound_abs x y Y0). lia.
Qed.

(** The second operand an integer. *)
Lemma safe_low_ri_iff : forall t op a z, signed_rep t ->
  Z.abs (low_num a) <= rmax t -> low_den a <= rmax t -> in_rep t z = true ->
  ok (do v <- p_arith safe t op (RI (mkRaw (low_num a) (low_den a)) z);
      reduce t v normalize_signs_mode) <-> enough (rmax t) op a (inject_Z z).
Proof.
  intros t op a z SR Na Da Fz. pose proof SR as [W S]. apply range_iff in Fz; auto.
  pose proof (low_den_pos a) as Pa. pose proof (rmax_big t W) as Mx.
  destruct (over_int_r a z) as [EL [EA EB]]. destruct (low_int z) as [Nz Dz].
  assert (Z0 : (inject_Z z == 0)%Q <-> z = 0) by (rewrite low_zero, Nz; tauto).
  destruct op; cbn [p_arith safe p_plus_ri p_minus_ri p_multiplies_ri p_divides_ri p_modulus_ri enough];
    unfold safe_plus_ri, safe_minus_ri, safe_multiplies_ri, safe_divides_ri, safe_modulus_ri; cbn [num den];
    unfold common_fits; rewrite ?EA, ?EB, ?EL, ?Nz, ?Dz, ?Z0, ?Z.mul_1_r; unfold m_mul, m_add, m_sub;
    set (n := low_num a) in *; set (d := low_den a) in *; clearbody n d.
  - step_arith t SR; [|lia]. step_arith t SR; [|lia].
    rewrite reduce_iff; auto; [cbn [num den]; lia|split; cbn [num den]; auto; apply range_iff; auto; lia].
  - step_arith t SR; [|lia]. step_arith t SR; [|lia].
    rewrite reduce_iff; auto; [cbn [num den]; lia|split; cbn [num den]; auto; apply range_iff; auto; lia].
  - step_arith t SR; [|lia].
    rewrite reduce_iff; auto; [cbn [num den]; lia|split; cbn [num den]; auto; apply range_iff; auto; lia].
  - assert (DZ : d * z = 0 <-> z = 0) by nia.
    step_arith t SR; [|lia].
    rewrite reduce_iff; auto; [cbn [num den]; lia|split; cbn [num den]; auto; apply range_iff; auto; lia].
  - rewrite (Z.mul_comm z d). assert (DZ : d * z = 0 <-> z = 0) by nia. rewrite <- DZ.
    set (p := d * z) in *. step_arith t SR; [|lia]. unfold m_rem.
    destruct (Z.eqb_spec p 0); [cbn [bind]; split; [intros [? ?]; discriminate|tauto]|].
    pose proof (quot_range t n p SR) as QR. rewrite arith_iff by auto.
    destruct (in_rep t (Z.quot n p)) eqn:IQ; cbn [bind].
    + pose proof (rem_range t n p SR) as RR'. rewrite reduce_iff; auto; [cbn [num den]; lia|].
      split; cbn [num den]; apply range_iff; auto; lia.
    + split; [intros [? ?]; discriminate|]. intros [_ [_ K]]. apply QR in K; (discriminate || lia).
Qed.

Lemma safe_low_ir_iff : forall t op a z, signed_rep t ->
  Z.abs (low_num a) <= rmax t -> low_den a <= rmax t -> in_rep t z = true ->
  ok (do v <- p_arith safe t op (IR z (mkRaw (low_num a) (low_den a)));
      reduce t v normalize_signs_mode) <-> enough (rmax t) op (inject_Z z) a.
Proof.
  intros t op a z SR Na Da Fz. pose proof SR as [W S]. apply range_iff in Fz; auto.
  pose proof (low_den_pos a) as Pa. pose proof (rmax_big t W) as Mx.
  destruct (over_int_l a z) as [EL [EA EB]]. destruct (low_int z) as [Nz Dz].
  pose proof (low_zero a) as Z0.
  assert (ZB : low_num a = 0 -> low_den a = 1).
  { intros E. pose proof (low_canonical a) as C. rewrite E in C. rewrite Z.gcd_0_l in C. lia. }
  destruct op; cbn [p_arith safe p_plus_ir p_minus_ir p_multiplies_ir p_divides_ir p_modulus_ir enough];
    unfold safe_plus_ir, safe_minus_ir, safe_multiplies_ir, safe_divides_ir, safe_modulus_ir, safe_plus_ri, safe_multiplies_ri; cbn [num den];
    unfold common_fits; rewrite ?EA, ?EB, ?EL, ?Nz, ?Dz, ?Z0, ?Z.mul_1_r, ?Z.mul_1_l; unfold m_mul, m_add, m_sub;
    set (n := low_num a) in *; set (d := low_den a) in *; clearbody n d.
  - step_arith t SR; [|lia]. step_arith t SR; [|lia].
    rewrite reduce_iff; auto; [cbn [num den]; lia|split; cbn [num den]; auto; apply range_iff; auto; lia].
  - step_arith t SR; [|lia]. step_arith t SR; [|lia].
    rewrite reduce_iff; auto; [cbn [num den]; lia|split; cbn [num den]; auto; apply range_iff; auto; lia].
  - rewrite (Z.mul_comm z n). step_arith t SR; [|lia].
    rewrite reduce_iff; auto; [cbn [num den]; lia|split; cbn [num den]; auto; apply range_iff; auto; lia].
  - assert (n = 0 -> z * d = z) by (intros E; rewrite (ZB E); ring).
    step_arith t SR; [|lia].
    rewrite reduce_iff; auto; [cbn [num den]; lia|split; cbn [num den]; auto; apply range_iff; auto; lia].
  - rewrite (Z.mul_comm z d).
    set (p := d * z) in *. step_arith t SR; [|lia]. unfold m_rem.
    destruct (Z.eqb_spec n 0); [cbn [bind]; split; [intros [? ?]; discriminate|tauto]|].
    pose proof (quot_range t p n SR) as QR. rewrite arith_iff by auto.
    destruct (in_rep t (Z.quot p n)) eqn:IQ; cbn [bind].
    + pose proof (rem_range t p n SR) as RR'. rewrite reduce_iff; auto; [cbn [num den]; lia|].
      split; cbn [num den]; apply range_iff; auto; lia.
    + split; [intros [? ?]; discriminate|]. intros [_ [_ K]]. apply QR in K; (discriminate || lia).
Qed.

Theorem io_ri_iff : forall t op l z a, signed_rep t -> raw_bounded (rmax t) l -> 0 < den l -> in_rep t z = true ->
  value l = Some a ->
  (exists x, p_arith (denote defaults) t op (RI l z) = Ok x) <-> enough (rmax t) op a (inject_Z z).
Proof.
  intros t op l z a SR [Ln Ld] P F VA. rewrite io_ri.
  destruct (reduce_low t l a) as [s1 [U1 [-> [A1 [A2 E]]]]]; auto. rewrite (E P), !Z.mul_1_l. cbn [bind].
  now apply safe_low_ri_iff.
Qed.
Theorem io_ir_iff : forall t op l z a, signed_rep t -> raw_bounded (rmax t) l -> 0 < den l -> in_rep t z = true ->
  value l = Some a ->
  (exists x, p_arith (denote defaults) t op (IR z l) = Ok x) <-> enough (rmax t) op (inject_Z z) a.
Proof.
  intros t op l z a SR [Ln Ld] P F VA. rewrite io_ir.
  destruct (reduce_low t l a) as [s1 [U1 [-> [A1 [A2 E]]]]]; auto. rewrite (E P), !Z.mul_1_l. cbn [bind].
  now apply safe_low_ir_iff.
Qed.

(** Comparisons of two fractions. *)
Theorem io_cmp_iff : forall t op l r a b, signed_rep t -> raw_bounded (rmax t) l -> raw_bounded (rmax t) r ->
  value l = Some a -> value r = Some b ->
  (exists x, p_cmp (denote defaults) t op (RR l r) = Ok x) <-> common_fits (rmax t) a b.
Proof.
  intros t op l r a b SR [Ln Ld] [Rn Rd] VA VB. rewrite io_cmp_rr.
  destruct (reduce_low t l a) as [s1 [U1 [-> [A1 [A2 _]]]]]; auto.
  destruct (reduce_low t r b) as [s2 [U2 [-> [B1 [B2 _]]]]]; auto. cbn [bind].
  pose proof SR as [W S]. pose proof (low_den_pos a) as Pa. pose proof (low_den_pos b) as Pb.
  assert (NU : forall q s, usign s -> is_undefined (mkRaw (s * low_num q) (s * low_den q)) = false).
  { intros q s U. apply not_true_is_false. rewrite is_undefined_iff. cbn [den]. pose proof (low_den_pos q). destruct U as [-> | ->]; lia. }
  assert (C : forall (f : Z -> Z -> bool) x y s s' , usign s -> usign s' ->
      Z.abs (low_num x) <= rmax t -> low_den x <= rmax t -> Z.abs (low_num y) <= rmax t -> low_den y <= rmax t ->
      ok (do lcm <- std_lcm t (s * low_den x) (s' * low_den y);
          do u <- m_div t lcm (s * low_den x);
          do u <- m_mul t u (s * low_num x);
          do v <- m_div t lcm (s' * low_den y);
          do v <- m_mul t v (s' * low_num y);
          Ok (f u v)) <-> common_fits (rmax t) x y).
  { intros f x y s s' U U' Nx Dx Ny Dy.
    pose proof (common_run bool t s (low_num x) (low_den x) s' (low_num y) (low_den y) (fun _ u v => Ok (f u v)) SR U U'
      (conj (low_den_pos x) Dx) (conj (low_den_pos y) Dy)) as CR.
    cbv zeta in CR. fold (least_den x y) in CR. fold (over x (least_den x y)) (over y (least_den x y)) in CR.
    rewrite CR. unfold common_fits. destruct (Z.leb_spec (least_den x y) (rmax t)); [|split; [intros [? ?]; discriminate|lia]].
    step_arith t SR; [|tauto]. step_arith t SR; [|tauto].
    split; [tauto|intros _; eexists; reflexivity]. }
  assert (SYM : common_fits (rmax t) b a <-> common_fits (rmax t) a b).
  { unfold common_fits, least_den. rewrite (Z.lcm_comm (low_den b)). tauto. }
  assert (NG : forall x : res bool, ok (do b <- x; Ok (negb b)) <-> ok x).
  { intros [x|u]; cbn [bind]; split; intros [y Y]; try discriminate; eexists; reflexivity. }
  destruct op; cbn [p_cmp safe p_equal_to_rr p_not_equal_to_rr p_less_rr p_less_equal_rr p_greater_rr p_greater_equal_rr];
    unfold safe_not_equal_to_rr, safe_greater_rr, safe_greater_equal_rr; fold (@ok bool);
    rewrite ?NG; unfold safe_equal_to_rr, safe_less_rr, safe_less_equal_rr; rewrite !NU by auto; cbn [orb num den].
  - apply (C Z.eqb); auto.
  - change (ok (do b <- (do lcm <- std_lcm t (s1 * low_den a) (s2 * low_den b);
          do u <- m_div t lcm (s1 * low_den a);
          do u <- m_mul t u (s1 * low_num a);
          do v <- m_div t lcm (s2 * low_den b);
          do v <- m_mul t v (s2 * low_num b);
          Ok (u =? v)); Ok (negb b)) <-> common_fits (rmax t) a b). rewrite NG. apply (C Z.eqb); auto.
  - apply (C Z.ltb); auto.
  - apply (C Z.leb); auto.
  - rewrite <- SYM. apply (C Z.ltb); auto.
  - rewrite <- SYM. apply (C Z.leb); auto.
Qed.

(** The outcome depends only on the values. *)
Lemma enough_proper : forall M op a a' b b', (a == a')%Q -> (b == b')%Q -> enough M op a b <-> enough M op a' b'.
Proof.
  intros M op a a' b b' HA HB. apply Qred_complete in HA, HB.
  assert (ZB : (b == 0)%Q <-> (b' == 0)%Q) by (rewrite !low_zero; unfold low_num; now rewrite HB).
  unfold enough, common_fits, over, least_den, low_num, low_den. rewrite HA, HB. destruct op; tauto.
Qed.
Lemma common_fits_proper : forall M a a' b b', (a == a')%Q -> (b == b')%Q -> common_fits M a b <-> common_fits M a' b'.
Proof.
  intros M a a' b b' HA HB. apply Qred_complete in HA, HB.
  unfold common_fits, over, least_den, low_num, low_den. now rewrite HA, HB.
Qed.

Lemma same_none_l : forall x, same_value None x -> x = None.
Proof. intros [q|]; [contradiction|reflexivity]. Qed.

Lemma bounded_wf : forall t l, signed_rep t -> raw_bounded (rmax t) l -> wf_raw t l.
Proof. intros t l SR [A B]. split; now apply abs_fits. Qed.

Lemma value_only_half : forall t op l r l' r' x, signed_rep t ->
  raw_bounded (rmax t) l -> raw_bounded (rmax t) r -> raw_bounded (rmax t) l' -> raw_bounded (rmax t) r' ->
  same_value (value l) (value l') -> same_value (value r) (value r') ->
  p_arith (denote defaults) t op (RR l r) = Ok x -> p_arith (denote defaults) t op (RR l' r') = Ok x.
Proof.
  intros t op l r l' r' x SR BL BR BL' BR' SL SRv H. pose proof SR as [W S].
  assert (WL := bounded_wf t l SR BL). assert (WR := bounded_wf t r SR BR).
  assert (WL' := bounded_wf t l' SR BL'). assert (WR' := bounded_wf t r' SR BR').
  assert (UNDEF : value l = None \/ value r = None -> p_arith (denote defaults) t op (RR l' r') = Ok x).
  { intros D. assert (D' : value l' = None \/ value r' = None).
    { destruct D as [D|D]; [left; rewrite D in SL|right; rewrite D in SRv]; now apply same_none_l. }
    assert (OP : (op = Plus \/ op = Minus \/ op = Modulus) \/ (op = Multiplies \/ op = Divides)) by (destruct op; auto).
    destruct OP as [OP|OP].
    - destruct (built_on_safe_undef_traps defaults t op l r) as [u E]; auto. congruence.
    - pose proof (defaults_mul_div_undef t op l r W WL WR BL BR OP D).
      pose proof (defaults_mul_div_undef t op l' r' W WL' WR' BL' BR' OP D'). congruence. }
  destruct (value l) as [a|] eqn:VA; [|auto]. destruct (value r) as [b|] eqn:VB; [|auto]. clear UNDEF.
  destruct (value l') as [a'|] eqn:VA'; [|contradiction]. destruct (value r') as [b'|] eqn:VB'; [|contradiction].
  cbn [same_value] in SL, SRv.
  assert (E : enough (rmax t) op a' b').
  { apply (enough_proper _ op a a' b b' SL SRv). apply (io_iff t op l r a b); auto. now exists x. }
  apply (io_iff t op l' r' a' b') in E as [x' H']; auto.
  rewrite H'. f_equal. symmetry.
  assert (WA : wf_args t (RR l r)) by now split. assert (WA' : wf_args t (RR l' r')) by now split.
  apply canonical_unique.
  - exact (denote_canonical defaults t op _ x W WA eq_refl H).
  - exact (denote_canonical defaults t op _ x' W WA' eq_refl H').
  - pose proof (denote_exact_opt defaults t op _ x W S WA (or_intror (or_introl eq_refl)) H) as X.
    pose proof (denote_exact_opt defaults t op _ x' W S WA' (or_intror (or_introl eq_refl)) H') as X'.
    eapply same_trans; [exact X|]. apply same_sym. eapply same_trans; [exact X'|].
    cbn [left_value right_value]. rewrite VA, VB, VA', VB'. apply exact_opt_proper; auto; cbn [same_value]; now symmetry.
Qed.

Theorem value_only : forall t op l r l' r', signed_rep t ->
  raw_bounded (rmax t) l -> raw_bounded (rmax t) r -> raw_bounded (rmax t) l' -> raw_bounded (rmax t) r' ->
  same_value (value l) (value l') -> same_value (value r) (value r') ->
  agree (p_arith (denote defaults) t op (RR l r)) (p_arith (denote defaults) t op (RR l' r')).
Proof.
  intros t op l r l' r' SR A B C D E F x. split; apply value_only_half; auto; now apply same_sym.
Qed.

Lemma cmp_undef_total : forall t op l r, signed_rep t -> raw_bounded (rmax t) l -> raw_bounded (rmax t) r ->
  value l = None \/ value r = None -> exists v, p_cmp (denote defaults) t op (RR l r) = Ok v.
Proof.
  intros t op l r SR BL BR D. pose proof SR as [W S]. rewrite io_cmp_rr.
  destruct (reduce_total t l ignore_signs_mode) as [l' L]; auto; try apply BL; [now apply bounded_wf|].
  destruct (reduce_total t r ignore_signs_mode) as [r' R]; auto; try apply BR; [now apply bounded_wf|].
  rewrite L, R. cbn [bind].
  assert (U : is_undefined l' || is_undefined r' = true).
  { apply orb_true_iff. rewrite !is_undefined_iff.
    destruct (reduce_spec _ _ _ _ W (bounded_wf t l SR BL) L) as [_ [RL _]].
    destruct (reduce_spec _ _ _ _ W (bounded_wf t r SR BR) R) as [_ [RR' _]].
    rewrite (reduces_den_zero _ _ _ RL), (reduces_den_zero _ _ _ RR'). rewrite !value_none_iff in D. tauto. }
  assert (U' : is_undefined r' || is_undefined l' = true) by (now rewrite orb_comm).
  destruct op; cbn [p_cmp safe p_equal_to_rr p_not_equal_to_rr p_less_rr p_less_equal_rr p_greater_rr p_greater_equal_rr];
    unfold safe_not_equal_to_rr, safe_greater_rr, safe_greater_equal_rr, safe_equal_to_rr, safe_less_rr, safe_less_equal_rr;
    rewrite ?U, ?U'; cbn [bind]; eexists; reflexivity.
Qed.

Lemma cmp_value_only_half : forall t op l r l' r' v, signed_rep t ->
  raw_bounded (rmax t) l -> raw_bounded (rmax t) r -> raw_bounded (rmax t) l' -> raw_bounded (rmax t) r' ->
  same_value (value l) (value l') -> same_value (value r) (value r') ->
  p_cmp (denote defaults) t op (RR l r) = Ok v -> p_cmp (denote defaults) t op (RR l' r') = Ok v.
Proof.
  intros t op l r l' r' v SR BL BR BL' BR' SL SRv H. pose proof SR as [W S].
  assert (WL := bounded_wf t l SR BL). assert (WR := bounded_wf t r SR BR).
  assert (WL' := bounded_wf t l' SR BL'). assert (WR' := bounded_wf t r' SR BR').
  assert (T : exists v', p_cmp (denote defaults) t op (RR l' r') = Ok v').
  { destruct (value l') as [a'|] eqn:VA'; [|apply cmp_undef_total; auto].
    destruct (value r') as [b'|] eqn:VB'; [|apply cmp_undef_total; auto].
    destruct (value l) as [a|] eqn:VA; [|contradiction]. destruct (value r) as [b|] eqn:VB; [|contradiction].
    apply (io_cmp_iff t op l' r' a' b'); auto. apply (common_fits_proper _ a a' b b' SL SRv).
    apply (io_cmp_iff t op l r a b); auto. now exists v. }
  destruct T as [v' H']. rewrite H'. f_equal.
  assert (OD : forall x y, cmp_ok defaults op (RR x y)) by (intros; right; right; right; left; reflexivity).
  rewrite (denote_cmp defaults t op (RR l r) v W S (conj WL WR) (OD l r) H).
  rewrite (denote_cmp defaults t op (RR l' r') v' W S (conj WL' WR') (OD l' r') H').
  cbn [left_value right_value]. symmetry. now apply exact_cmp_opt_proper.
Qed.

Theorem cmp_value_only : forall t op l r l' r', signed_rep t ->
  raw_bounded (rmax t) l -> raw_bounded (rmax t) r -> raw_bounded (rmax t) l' -> raw_bounded (rmax t) r' ->
  same_value (value l) (value l') -> same_value (value r) (value r') ->
  agree (p_cmp (denote defaults) t op (RR l r)) (p_cmp (denote defaults) t op (RR l' r')).
Proof.
  intros t op l r l' r' SR A B C D E F x. split; apply cmp_value_only_half; auto; now apply same_sym.
Qed.

(** A wider representation. *)
Lemma enough_mono : forall M M' op a b, M <= M' -> enough M op a b -> enough M' op a b.
Proof. intros M M' op a b L. unfold enough, common_fits. destruct op; intros H; intuition lia. Qed.

Lemma bounded_mono : forall M M' v, M <= M' -> raw_bounded M v -> raw_bounded M' v.
Proof. intros M M' v L [A B]. split; lia. Qed.

Theorem io_wider : forall t u op l r x, signed_rep t -> signed_rep u -> rmax t <= rmax u ->
  raw_bounded (rmax t) l -> raw_bounded (rmax t) r ->
  p_arith (denote defaults) t op (RR l r) = Ok x -> p_arith (denote defaults) u op (RR l r) = Ok x.
Proof.
  intros t u op l r x SR SU LE BL BR H. pose proof SR as [W S]. pose proof SU as [W' S'].
  assert (BL' := bounded_mono _ _ _ LE BL). assert (BR' := bounded_mono _ _ _ LE BR).
  assert (WL := bounded_wf t l SR BL). assert (WR := bounded_wf t r SR BR).
  assert (WL' := bounded_wf u l SU BL'). assert (WR' := bounded_wf u r SU BR').
  assert (UNDEF : value l = None \/ value r = None -> p_arith (denote defaults) u op (RR l r) = Ok x).
  { intros D. assert (OP : (op = Plus \/ op = Minus \/ op = Modulus) \/ (op = Multiplies \/ op = Divides)) by (destruct op; auto).
    destruct OP as [OP|OP].
    - destruct (built_on_safe_undef_traps defaults t op l r) as [e E]; auto. congruence.
    - pose proof (defaults_mul_div_undef t op l r W WL WR BL BR OP D).
      pose proof (defaults_mul_div_undef u op l r W' WL' WR' BL' BR' OP D). congruence. }
  destruct (value l) as [a|] eqn:VA; [|auto]. destruct (value r) as [b|] eqn:VB; [|auto]. clear UNDEF.
  assert (E : enough (rmax u) op a b).
  { apply (enough_mono (rmax t)); auto. apply (io_iff t op l r a b); auto. now exists x. }
  apply (io_iff u op l r a b) in E as [x' H']; auto.
  rewrite H'. f_equal. symmetry.
  assert (WA : wf_args t (RR l r)) by now split. assert (WA' : wf_args u (RR l r)) by now split.
  apply canonical_unique.
  - exact (denote_canonical defaults t op _ x W WA eq_refl H).
  - exact (denote_canonical defaults u op _ x' W' WA' eq_refl H').
  - pose proof (denote_exact_opt defaults t op _ x W S WA (or_intror (or_introl eq_refl)) H) as X.
    pose proof (denote_exact_opt defaults u op _ x' W' S' WA' (or_intror (or_introl eq_refl)) H') as X'.
    eapply same_trans; [exact X|]. now apply same_sym.
Qed.

Theorem io_cmp_wider : forall t u op l r v, signed_rep t -> signed_rep u -> rmax t <= rmax u ->
  raw_bounded (rmax t) l -> raw_bounded (rmax t) r ->
  p_cmp (denote defaults) t op (RR l r) = Ok v -> p_cmp (denote defaults) u op (RR l r) = Ok v.
Proof.
  intros t u op l r v SR SU LE BL BR H. pose proof SR as [W S]. pose proof SU as [W' S'].
  assert (BL' := bounded_mono _ _ _ LE BL). assert (BR' := bounded_mono _ _ _ LE BR).
  assert (WL := bounded_wf t l SR BL). assert (WR := bounded_wf t r SR BR).
  assert (WL' := bounded_wf u l SU BL'). assert (WR' := bounded_wf u r SU BR').
  assert (T : exists v', p_cmp (denote defaults) u op (RR l r) = Ok v').
  { destruct (value l) as [a|] eqn:VA; [|apply cmp_undef_total; auto].
    destruct (value r) as [b|] eqn:VB; [|apply cmp_undef_total; auto].
    apply (io_cmp_iff u op l r a b); auto.
    assert (C : common_fits (rmax t) a b) by (apply (io_cmp_iff t op l r a b); auto; now exists v).
    unfold common_fits in *. intuition lia. }
  destruct T as [v' H']. rewrite H'. f_equal.
  assert (OD : cmp_ok defaults op (RR l r)) by (right; right; right; left; reflexivity).
  rewrite (denote_cmp defaults t op (RR l r) v W S (conj WL WR) OD H).
  now rewrite (denote_cmp defaults u op (RR l r) v' W' S' (conj WL' WR') OD H').
Qed.
