(** Lemmas for C104. *)

From Coq Require Import ZArith Bool Lia List.
From Verif Require Import Machine Raw Ops Spec Fraction Stack_spec Outcome_spec.
From Verif Require Import Machine_proofs Value_proofs Ops_proofs Cmp_proofs Algebra_proofs Fraction_proofs Stack_proofs.
Import ListNotations.
Open Scope Z_scope.

Lemma bind_iff : forall A B (x : res A) (f : A -> res B) r, bind x f = Ok r <-> exists a, x = Ok a /\ f a = Ok r.
Proof.
  intros A B x f r. destruct x as [a|u]; cbn [bind]; split.
  - intros H. now exists a.
  - intros (b & E & H). now injection E as ->.
  - discriminate.
  - intros (b & E & _). discriminate.
Qed.

Lemma in_rep_iff : forall t z, in_rep t z = true <-> rmin t <= z <= rmax t.
Proof. intros t z. unfold in_rep. rewrite andb_true_iff, !Z.leb_le. reflexivity. Qed.

Lemma arith_holds : forall t z w, arith t z = Ok w <-> holds t z w.
Proof.
  intros t z w. unfold arith, holds, wrap. destruct (rsigned t).
  - destruct (in_rep t z) eqn:E.
    + apply in_rep_iff in E. split; [intros H; injection H as <-; auto|intros [-> _]; auto].
    + split; [discriminate|]. intros [-> H]. apply in_rep_iff in H. congruence.
  - split; [intros H; now injection H|now intros ->].
Qed.

Lemma holds_in : forall t z, wf_rep t -> in_rep t z = true -> forall w, holds t z w <-> w = z.
Proof.
  intros t z W I w. rewrite <- arith_holds, arith_in by auto. split; [intros H; now injection H|now intros ->].
Qed.

Lemma mul_holds : forall t a b w, m_mul t a b = Ok w <-> holds t (a * b) w. Proof. intros. apply arith_holds. Qed.
Lemma add_holds : forall t a b w, m_add t a b = Ok w <-> holds t (a + b) w. Proof. intros. apply arith_holds. Qed.
Lemma sub_holds : forall t a b w, m_sub t a b = Ok w <-> holds t (a - b) w. Proof. intros. apply arith_holds. Qed.

Lemma rep_abs : forall t z, wf_rep t -> in_rep t z = true -> - rmax t - 1 <= z <= rmax t /\ (z < 0 -> rmin t < 0).
Proof.
  intros t z W I. apply in_rep_iff in I. unfold rmin, rmax in *. destruct (rsigned t); [lia|].
  pose proof (Z.pow_pos_nonneg 2 (rbits t)). unfold wf_rep in W. lia.
Qed.
Lemma rep_range : forall t z, wf_rep t -> 0 <= z <= rmax t -> in_rep t z = true.
Proof.
  intros t z W I. apply in_rep_iff. unfold rmin, rmax in *. unfold wf_rep in W. destruct (rsigned t); [|lia].
  pose proof (Z.pow_pos_nonneg 2 (rbits t - 1)). lia.
Qed.
Lemma rep_neg : forall t z, wf_rep t -> - rmax t <= z <= rmax t -> (z < 0 -> rmin t < 0) -> in_rep t z = true.
Proof.
  intros t z W I S. apply in_rep_iff. unfold rmin, rmax in *. unfold wf_rep in W. destruct (rsigned t); [|lia].
  pose proof (Z.pow_pos_nonneg 2 (rbits t - 1)). lia.
Qed.

Lemma rem_holds : forall t x y w, wf_rep t -> in_rep t x = true -> in_rep t y = true ->
  m_rem t x y = Ok w <-> y <> 0 /\ Z.quot x y <= rmax t /\ w = Z.rem x y.
Proof.
  intros t x y w W IX IY. unfold m_rem. destruct (Z.eqb_spec y 0) as [E|E].
  - split; [discriminate|]. intros (N & _). contradiction.
  - rewrite bind_iff. split.
    + intros (q & Q & H). injection H as <-. split; auto. split; auto.
      apply arith_holds in Q. unfold holds in Q. destruct (rsigned t) eqn:S; [lia|].
      apply in_rep_iff in IX. apply in_rep_iff in IY. unfold rmin in IX, IY. rewrite S in IX, IY.
      pose proof (Z.quot_pos x y). pose proof (Z.quot_le_upper_bound x y (rmax t)). nia.
    + intros (_ & Q & ->). exists (Z.quot x y). split; auto. apply arith_in; auto.
      assert (AB : Z.abs (Z.quot x y) <= Z.abs x) by (rewrite <- Z.quot_abs by auto; apply Z.quot_le_upper_bound; nia).
      pose proof (rep_abs t x W IX) as [RX SX].
      pose proof (rep_abs t y W IY) as [RY SY].
      destruct (Z_le_gt_dec 0 (Z.quot x y)) as [P|P]; [apply rep_range; [exact W|lia]|].
      apply in_rep_iff in IX. apply in_rep_iff in IY. apply in_rep_iff. split; [|lia].
      unfold rmin, rmax in *. destruct (rsigned t); [lia|].
      pose proof (Z.quot_pos x y). lia.
Qed.

Lemma lcm_holds : forall t a b w, wf_rep t ->
  std_lcm t a b = Ok w <-> Z.abs a <= rmax t /\ Z.abs b <= rmax t /\ Z.lcm a b <= rmax t /\ w = Z.lcm a b.
Proof.
  intros t a b w W. unfold std_lcm.
  assert (R : forall z, 0 <= z -> in_rep t z = true <-> z <= rmax t).
  { intros z Z0. split; intros H; [apply in_rep_iff in H; lia|apply rep_range; auto]. }
  destruct (in_rep t (Z.abs a) && in_rep t (Z.abs b) && in_rep t (Z.lcm a b)) eqn:E.
  - rewrite !andb_true_iff in E. destruct E as [[E1 E2] E3].
    apply R in E1; [|lia]. apply R in E2; [|lia]. apply R in E3; [|apply Z.lcm_nonneg].
    split; [intros H; injection H as <-; auto|now intros (_ & _ & _ & ->)].
  - split; [discriminate|]. intros (A & B & C & _).
    apply R in A; [|lia]. apply R in B; [|lia]. apply R in C; [|apply Z.lcm_nonneg]. rewrite A, B, C in E. discriminate.
Qed.

Lemma lcm_quot : forall t a b, wf_rep t -> in_rep t a = true -> a <> 0 -> b <> 0 -> Z.lcm a b <= rmax t ->
  m_div t (Z.lcm a b) a = Ok (Z.lcm a b / a).
Proof.
  intros t a b W IA A B L. unfold m_div. destruct (Z.eqb_spec a 0); [contradiction|].
  destruct (Z.divide_lcm_l a b) as [k K]. pose proof (Z.lcm_nonneg a b) as NN.
  rewrite K in *. rewrite Z.quot_mul, Z.div_mul by auto. apply arith_in; auto.
  pose proof (rep_abs t a W IA) as [RA SA]. apply rep_neg; auto; [nia|]. intros K0. apply SA. nia.
Qed.
Lemma div_zero : forall t a r, m_div t a 0 = Ok r -> False.
Proof. intros t a r H. discriminate. Qed.

(** Bringing both operands to the least common denominator. *)
Lemma least_iff : forall t A l r (k : Z -> Z -> Z -> res A) v, wf_rep t -> wf_raw t l -> wf_raw t r ->
  (do lcm <- std_lcm t (den l) (den r);
   do a <- m_div t lcm (den l); do a <- m_mul t a (num l);
   do b <- m_div t lcm (den r); do b <- m_mul t b (num r); k lcm a b) = Ok v <->
  exists x y, numerators t true (RR l r) x y /\ k (Z.lcm (den l) (den r)) x y = Ok v.
Proof.
  intros t A l r k v W [L1 L2] [R1 R2]. unfold numerators. cbn [uses_lcm andb two_fractions left_of right_of]. split.
  - intros H. apply bind_iff in H as (g & G & H). apply lcm_holds in G as (GA & GB & GC & ->); auto.
    destruct (Z.eq_dec (den l) 0) as [Z1|N1]; [rewrite Z1 in H; cbn [bind] in H; unfold m_div in H; cbn in H; discriminate|].
    apply bind_iff in H as (a & HA & H). apply bind_iff in H as (x & HX & H).
    destruct (Z.eq_dec (den r) 0) as [Z2|N2]; [rewrite Z2 in H; unfold m_div in H; cbn in H; discriminate|].
    apply bind_iff in H as (b & HB & H). apply bind_iff in H as (y & HY & H).
    rewrite lcm_quot in HA by auto. injection HA as <-.
    rewrite Z.lcm_comm in HB. rewrite lcm_quot in HB by (auto; rewrite Z.lcm_comm; auto). injection HB as <-.
    rewrite (Z.lcm_comm (den r)) in HY.
    apply mul_holds in HX. apply mul_holds in HY. rewrite Z.mul_comm in HX, HY. exists x, y. repeat split; auto.
  - intros (x & y & (N1 & N2 & GA & GB & GC & HX & HY) & H).
    apply bind_iff. exists (Z.lcm (den l) (den r)). split; [apply lcm_holds; auto|].
    rewrite lcm_quot by auto. cbn [bind]. rewrite Z.mul_comm in HX, HY. apply mul_holds in HX. rewrite HX. cbn [bind].
    rewrite (Z.lcm_comm (den l)). rewrite lcm_quot by (auto; rewrite Z.lcm_comm; auto). cbn [bind].
    rewrite (Z.lcm_comm (den r)). apply mul_holds in HY. rewrite HY. exact H.
Qed.
Lemma ok_raw : forall n d v, Ok (mkRaw n d) = Ok v <-> num v = n /\ den v = d.
Proof. intros n d [a b]. cbn. split; [intros H; now injection H|intros [-> ->]; auto]. Qed.

Lemma numerators_in : forall t least a x y, wf_rep t -> wf_args t a -> numerators t least a x y ->
  in_rep t x = true /\ in_rep t y = true.
Proof.
  intros t least a x y W A. unfold numerators. destruct (uses_lcm least a).
  - intros (_ & _ & _ & _ & _ & HX & HY). apply arith_holds in HX. apply arith_holds in HY. split; eapply arith_result_in; eauto.
  - intros (HX & HY). apply arith_holds in HX. apply arith_holds in HY. split; eapply arith_result_in; eauto.
Qed.

Lemma cross_iff : forall t A l r (k : Z -> Z -> res A) v,
  (do a <- m_mul t (num l) (den r); do b <- m_mul t (num r) (den l); k a b) = Ok v <->
  exists x y, numerators t false (RR l r) x y /\ k x y = Ok v.
Proof.
  intros t A l r k v. unfold numerators. cbn [uses_lcm andb left_of right_of]. rewrite bind_iff. split.
  - intros (x & HX & H). apply bind_iff in H as (y & HY & H). exists x, y. repeat split; auto; now apply mul_holds.
  - intros (x & y & [HX HY] & H). exists x. split; [now apply mul_holds|]. apply bind_iff. exists y. split; [now apply mul_holds|auto].
Qed.
Lemma numerators_ri : forall t least l z x y, wf_rep t -> wf_raw t l ->
  numerators t least (RI l z) x y <-> x = num l /\ holds t (z * den l) y.
Proof.
  intros t least l z x y W [L1 L2]. unfold numerators, uses_lcm. cbn [two_fractions left_of right_of num den]. rewrite andb_false_r.
  rewrite Z.mul_1_r, holds_in by auto. reflexivity.
Qed.
Lemma numerators_ir : forall t least z r x y, wf_rep t -> wf_raw t r ->
  numerators t least (IR z r) x y <-> y = num r /\ holds t (z * den r) x.
Proof.
  intros t least l z x y W [L1 L2]. unfold numerators, uses_lcm. cbn [two_fractions left_of right_of num den]. rewrite andb_false_r.
  rewrite Z.mul_1_r, (holds_in t (num z)) by auto. tauto.
Qed.
Lemma denominator_ri : forall t least l z d, wf_rep t -> wf_raw t l -> denominator t least (RI l z) d <-> d = den l.
Proof.
  intros t least l z d W [L1 L2]. unfold denominator, uses_lcm. cbn [two_fractions left_of right_of num den]. rewrite andb_false_r.
  rewrite Z.mul_1_r. now apply holds_in.
Qed.
Lemma denominator_ir : forall t least z r d, wf_rep t -> wf_raw t r -> denominator t least (IR z r) d <-> d = den r.
Proof.
  intros t least l z d W [L1 L2]. unfold denominator, uses_lcm. cbn [two_fractions left_of right_of num den]. rewrite andb_false_r.
  rewrite Z.mul_1_l. now apply holds_in.
Qed.

(** With an integer, both policies compute the same. *)
Lemma int_same : forall t op a, two_fractions a = false -> p_arith safe t op a = p_arith fast t op a.
Proof.
  intros t op [l r|l z|z r] E; [discriminate| |]; destruct op; try reflexivity.
  - change (safe_modulus_ri t l z = fast_modulus_ri t l z). unfold safe_modulus_ri, fast_modulus_ri, m_mul. now rewrite (Z.mul_comm (den l)).
  - change (safe_modulus_ir t z r = fast_modulus_ir t z r). unfold safe_modulus_ir, fast_modulus_ir, m_mul. now rewrite (Z.mul_comm (den r)).
Qed.
Lemma int_cmp_same : forall t op a, two_fractions a = false -> p_cmp safe t op a = p_cmp fast t op a.
Proof. intros t op [l r|l z|z r] E; [discriminate| |]; destruct op; reflexivity. Qed.

Lemma fast_ri : forall t op l z v, wf_rep t -> wf_raw t l -> in_rep t z = true ->
  p_arith fast t op (RI l z) = Ok v <-> returns t false op (RI l z) v.
Proof.
  intros t op l z v W WL IZ. pose proof WL as [L1 L2]. unfold returns. destruct op.
  - change (fast_plus_ri t l z = Ok v <-> exists x y n, numerators t false (RI l z) x y /\ holds t (x + y) n /\ num v = n /\ denominator t false (RI l z) (den v)).
    unfold fast_plus_ri. rewrite bind_iff. split.
    + intros (p & HP & H). apply bind_iff in H as (n & HN & H). apply ok_raw in H as [E1 E2].
      exists (num l), p, n. rewrite numerators_ri, denominator_ri by auto. repeat split; auto; now apply arith_holds.
    + intros (x & y & n & N & HN & E1 & E2). apply numerators_ri in N as [-> HP]; auto. apply denominator_ri in E2; auto.
      exists y. split; [now apply arith_holds|]. apply bind_iff. exists n. split; [now apply arith_holds|now apply ok_raw].
  - change (fast_minus_ri t l z = Ok v <-> exists x y n, numerators t false (RI l z) x y /\ holds t (x - y) n /\ num v = n /\ denominator t false (RI l z) (den v)).
    unfold fast_minus_ri. rewrite bind_iff. split.
    + intros (p & HP & H). apply bind_iff in H as (n & HN & H). apply ok_raw in H as [E1 E2].
      exists (num l), p, n. rewrite numerators_ri, denominator_ri by auto. repeat split; auto; now apply arith_holds.
    + intros (x & y & n & N & HN & E1 & E2). apply numerators_ri in N as [-> HP]; auto. apply denominator_ri in E2; auto.
      exists y. split; [now apply arith_holds|]. apply bind_iff. exists n. split; [now apply arith_holds|now apply ok_raw].
  - change (fast_multiplies_ri t l z = Ok v <-> holds t (num l * z) (num v) /\ holds t (den l * 1) (den v)).
    unfold fast_multiplies_ri. rewrite bind_iff, Z.mul_1_r, (holds_in t (den l)) by auto. split.
    + intros (n & HN & H). apply ok_raw in H as [E1 E2]. split; auto. rewrite E1. now apply arith_holds.
    + intros [HN E]. exists (num v). split; [now apply arith_holds|now apply ok_raw].
  - change (fast_divides_ri t l z = Ok v <-> holds t (num l * 1) (num v) /\ holds t (den l * z) (den v)).
    unfold fast_divides_ri. rewrite bind_iff, Z.mul_1_r, (holds_in t (num l)) by auto. split.
    + intros (n & HN & H). apply ok_raw in H as [E1 E2]. split; auto. rewrite E2. now apply arith_holds.
    + intros [E HN]. exists (den v). split; [now apply arith_holds|now apply ok_raw].
  - change (fast_modulus_ri t l z = Ok v <-> exists x y, numerators t false (RI l z) x y /\ y <> 0 /\ Z.quot x y <= rmax t /\ num v = Z.rem x y /\ denominator t false (RI l z) (den v)).
    unfold fast_modulus_ri. rewrite bind_iff. split.
    + intros (p & HP & H). apply bind_iff in H as (n & HN & H). apply ok_raw in H as [E1 E2].
      pose proof (arith_result_in _ _ _ W HP). apply rem_holds in HN as (N0 & Q & ->); auto.
      exists (num l), p. rewrite numerators_ri, denominator_ri by auto. repeat split; auto; now apply arith_holds.
    + intros (x & y & N & N0 & Q & E1 & E2). apply numerators_ri in N as [-> HP]; auto. apply denominator_ri in E2; auto.
      apply arith_holds in HP. pose proof (arith_result_in _ _ _ W HP).
      exists y. split; [exact HP|]. apply bind_iff. exists (num v). split; [apply rem_holds; auto|now apply ok_raw].
Qed.
Lemma fast_ir : forall t op z r v, wf_rep t -> in_rep t z = true -> wf_raw t r ->
  p_arith fast t op (IR z r) = Ok v <-> returns t false op (IR z r) v.
Proof.
  intros t op z r v W IZ WR. pose proof WR as [R1 R2]. unfold returns. destruct op.
  - change (fast_plus_ri t r z = Ok v <-> exists x y n, numerators t false (IR z r) x y /\ holds t (x + y) n /\ num v = n /\ denominator t false (IR z r) (den v)).
    unfold fast_plus_ri. rewrite bind_iff. split.
    + intros (p & HP & H). apply bind_iff in H as (n & HN & H). apply ok_raw in H as [E1 E2].
      exists p, (num r), n. rewrite numerators_ir, denominator_ir by auto. repeat split; auto; try now apply arith_holds.
      rewrite Z.add_comm. now apply arith_holds.
    + intros (x & y & n & N & HN & E1 & E2). apply numerators_ir in N as [-> HP]; auto. apply denominator_ir in E2; auto.
      exists x. split; [now apply arith_holds|]. apply bind_iff. exists n. rewrite Z.add_comm in HN. split; [now apply arith_holds|now apply ok_raw].
  - change (fast_minus_ir t z r = Ok v <-> exists x y n, numerators t false (IR z r) x y /\ holds t (x - y) n /\ num v = n /\ denominator t false (IR z r) (den v)).
    unfold fast_minus_ir. rewrite bind_iff. split.
    + intros (p & HP & H). apply bind_iff in H as (n & HN & H). apply ok_raw in H as [E1 E2].
      exists p, (num r), n. rewrite numerators_ir, denominator_ir by auto. repeat split; auto; now apply arith_holds.
    + intros (x & y & n & N & HN & E1 & E2). apply numerators_ir in N as [-> HP]; auto. apply denominator_ir in E2; auto.
      exists x. split; [now apply arith_holds|]. apply bind_iff. exists n. split; [now apply arith_holds|now apply ok_raw].
  - change (fast_multiplies_ri t r z = Ok v <-> holds t (z * num r) (num v) /\ holds t (1 * den r) (den v)).
    unfold fast_multiplies_ri. rewrite bind_iff, Z.mul_1_l, (holds_in t (den r)), (Z.mul_comm z) by auto. split.
    + intros (n & HN & H). apply ok_raw in H as [E1 E2]. split; auto. rewrite E1. now apply arith_holds.
    + intros [HN E]. exists (num v). split; [now apply arith_holds|now apply ok_raw].
  - change (fast_divides_ir t z r = Ok v <-> holds t (z * den r) (num v) /\ holds t (1 * num r) (den v)).
    unfold fast_divides_ir. rewrite bind_iff, Z.mul_1_l, (holds_in t (num r)) by auto. split.
    + intros (n & HN & H). apply ok_raw in H as [E1 E2]. split; auto. rewrite E1. now apply arith_holds.
    + intros [HN E]. exists (num v). split; [now apply arith_holds|now apply ok_raw].
  - change (fast_modulus_ir t z r = Ok v <-> exists x y, numerators t false (IR z r) x y /\ y <> 0 /\ Z.quot x y <= rmax t /\ num v = Z.rem x y /\ denominator t false (IR z r) (den v)).
    unfold fast_modulus_ir. rewrite bind_iff. split.
    + intros (p & HP & H). apply bind_iff in H as (n & HN & H). apply ok_raw in H as [E1 E2].
      pose proof (arith_result_in _ _ _ W HP). apply rem_holds in HN as (N0 & Q & ->); auto.
      exists p, (num r). rewrite numerators_ir, denominator_ir by auto. repeat split; auto; now apply arith_holds.
    + intros (x & y & N & N0 & Q & E1 & E2). apply numerators_ir in N as [-> HP]; auto. apply denominator_ir in E2; auto.
      apply arith_holds in HP. pose proof (arith_result_in _ _ _ W HP).
      exists x. split; [exact HP|]. apply bind_iff. exists (num v). split; [apply rem_holds; auto|now apply ok_raw].
Qed.

Lemma fast_rr : forall t op l r v, wf_rep t -> wf_raw t l -> wf_raw t r ->
  p_arith fast t op (RR l r) = Ok v <-> returns t false op (RR l r) v.
Proof.
  intros t op l r v W WL WR. assert (WA : wf_args t (RR l r)) by now split. destruct op.
  - change (fast_plus_rr t l r = Ok v <-> returns t false Plus (RR l r) v). unfold fast_plus_rr, returns. rewrite cross_iff. split.
    + intros (x & y & N & H). apply bind_iff in H as (n & HN & H). apply bind_iff in H as (d & HD & H). apply ok_raw in H as [E1 E2].
      exists x, y, n. split; [exact N|]. split; [now apply arith_holds|]. split; [exact E1|]. rewrite E2. unfold denominator. now apply arith_holds.
    + intros (x & y & n & N & HN & E1 & E2). exists x, y. split; auto. apply bind_iff. exists n. split; [now apply arith_holds|].
      apply bind_iff. exists (den v). split; [now apply arith_holds|now apply ok_raw].
  - change (fast_minus_rr t l r = Ok v <-> returns t false Minus (RR l r) v). unfold fast_minus_rr, returns. rewrite cross_iff. split.
    + intros (x & y & N & H). apply bind_iff in H as (n & HN & H). apply bind_iff in H as (d & HD & H). apply ok_raw in H as [E1 E2].
      exists x, y, n. split; [exact N|]. split; [now apply arith_holds|]. split; [exact E1|]. rewrite E2. unfold denominator. now apply arith_holds.
    + intros (x & y & n & N & HN & E1 & E2). exists x, y. split; auto. apply bind_iff. exists n. split; [now apply arith_holds|].
      apply bind_iff. exists (den v). split; [now apply arith_holds|now apply ok_raw].
  - change (fast_multiplies_rr t l r = Ok v <-> holds t (num l * num r) (num v) /\ holds t (den l * den r) (den v)).
    unfold fast_multiplies_rr. rewrite bind_iff. split.
    + intros (n & HN & H). apply bind_iff in H as (d & HD & H). apply ok_raw in H as [-> ->]. split; now apply arith_holds.
    + intros [HN HD]. exists (num v). split; [now apply arith_holds|]. apply bind_iff. exists (den v). split; [now apply arith_holds|now apply ok_raw].
  - change (fast_divides_rr t l r = Ok v <-> holds t (num l * den r) (num v) /\ holds t (den l * num r) (den v)).
    unfold fast_divides_rr. rewrite bind_iff. split.
    + intros (n & HN & H). apply bind_iff in H as (d & HD & H). apply ok_raw in H as [-> ->]. split; now apply arith_holds.
    + intros [HN HD]. exists (num v). split; [now apply arith_holds|]. apply bind_iff. exists (den v). split; [now apply arith_holds|now apply ok_raw].
  - change (fast_modulus_rr t l r = Ok v <-> returns t false Modulus (RR l r) v). unfold fast_modulus_rr, returns. rewrite cross_iff. split.
    + intros (x & y & N & H). destruct (numerators_in t false _ x y W WA N).
      apply bind_iff in H as (n & HN & H). apply bind_iff in H as (d & HD & H). apply ok_raw in H as [E1 E2].
      apply rem_holds in HN as (N0 & Q & ->); auto. exists x, y. split; [exact N|]. split; [exact N0|]. split; [exact Q|]. split; [exact E1|].
      rewrite E2. unfold denominator. now apply arith_holds.
    + intros (x & y & N & N0 & Q & E1 & E2). destruct (numerators_in t false _ x y W WA N). exists x, y. split; auto.
      apply bind_iff. exists (num v). split; [apply rem_holds; auto|].
      apply bind_iff. exists (den v). split; [now apply arith_holds|now apply ok_raw].
Qed.
Lemma safe_rr : forall t op l r v, wf_rep t -> wf_raw t l -> wf_raw t r ->
  p_arith safe t op (RR l r) = Ok v <-> returns t true op (RR l r) v.
Proof.
  intros t op l r v W WL WR. assert (WA : wf_args t (RR l r)) by now split. destruct op.
  - change (safe_plus_rr t l r = Ok v <-> returns t true Plus (RR l r) v). unfold safe_plus_rr, returns. rewrite least_iff by auto. split.
    + intros (x & y & N & H). apply bind_iff in H as (n & HN & H). apply ok_raw in H as [E1 E2].
      exists x, y, n. split; [exact N|]. repeat split; auto; now apply arith_holds.
    + intros (x & y & n & N & HN & E1 & E2). exists x, y. split; auto. apply bind_iff. exists n. split; [now apply arith_holds|now apply ok_raw].
  - change (safe_minus_rr t l r = Ok v <-> returns t true Minus (RR l r) v). unfold safe_minus_rr, returns. rewrite least_iff by auto. split.
    + intros (x & y & N & H). apply bind_iff in H as (n & HN & H). apply ok_raw in H as [E1 E2].
      exists x, y, n. split; [exact N|]. repeat split; auto; now apply arith_holds.
    + intros (x & y & n & N & HN & E1 & E2). exists x, y. split; auto. apply bind_iff. exists n. split; [now apply arith_holds|now apply ok_raw].
  - exact (fast_rr t Multiplies l r v W WL WR).
  - exact (fast_rr t Divides l r v W WL WR).
  - change (safe_modulus_rr t l r = Ok v <-> returns t true Modulus (RR l r) v). unfold safe_modulus_rr, returns. rewrite least_iff by auto. split.
    + intros (x & y & N & H). destruct (numerators_in t true _ x y W WA N).
      apply bind_iff in H as (n & HN & H). apply ok_raw in H as [E1 E2].
      apply rem_holds in HN as (N0 & Q & ->); auto. exists x, y. split; [exact N|]. repeat split; auto.
    + intros (x & y & N & N0 & Q & E1 & E2). destruct (numerators_in t true _ x y W WA N). exists x, y. split; auto.
      apply bind_iff. exists (num v). split; [apply rem_holds; auto|now apply ok_raw].
Qed.

Lemma returns_int : forall t op a v, two_fractions a = false -> returns t true op a v <-> returns t false op a v.
Proof.
  intros t op a v E. unfold returns, numerators, denominator, uses_lcm. rewrite E. cbn [andb]. reflexivity.
Qed.

Theorem bottom_arith : forall b t op a v, b = Safe \/ b = Fast -> wf_rep t -> wf_args t a ->
  p_arith (denote b) t op a = Ok v <-> returns t (on_lcm b) op a v.
Proof.
  intros b t op a v B W A. destruct B as [-> | ->]; cbn [denote on_lcm bottom].
  - destruct a as [l r|l z|z r]; destruct A.
    + now apply safe_rr.
    + rewrite int_same, returns_int by auto. now apply fast_ri.
    + rewrite int_same, returns_int by auto. now apply fast_ir.
  - destruct a as [l r|l z|z r]; destruct A; [now apply fast_rr|now apply fast_ri|now apply fast_ir].
Qed.

(** Comparisons. *)
Lemma ok_bool : forall a b : bool, Ok a = Ok b <-> b = a.
Proof. intros a b. split; [intros H; now injection H|now intros ->]. Qed.

Lemma decides_cross : forall t op a v, decides t false op a v <->
  exists x y, numerators t false a x y /\
    v = if (den (left_of a) =? 0) || (den (right_of a) =? 0) then match op with Ne => true | _ => false end else int_cmp op x y.
Proof. intros. reflexivity. Qed.

Lemma fast_cmp_rr : forall t op l r v, p_cmp fast t op (RR l r) = Ok v <-> decides t false op (RR l r) v.
Proof.
  intros t op l r v. rewrite decides_cross. cbn [left_of right_of]. 
  assert (UL : is_defined l = negb (den l =? 0)) by reflexivity. assert (UR : is_defined r = negb (den r =? 0)) by reflexivity.
  destruct op.
  - change (fast_equal_to_rr t l r = Ok v <-> exists x y, numerators t false (RR l r) x y /\ v = if (den l =? 0) || (den r =? 0) then false else x =? y).
    unfold fast_equal_to_rr. rewrite cross_iff. rewrite UL, UR.
    split; intros (x & y & N & H); exists x, y; (split; [exact N|]); [apply ok_bool in H|apply ok_bool]; rewrite H;
      destruct (den l =? 0), (den r =? 0); cbn; rewrite ?andb_true_r, ?andb_false_r; reflexivity.
  - change ((do b <- fast_equal_to_rr t l r; Ok (negb b)) = Ok v <-> exists x y, numerators t false (RR l r) x y /\ v = if (den l =? 0) || (den r =? 0) then true else negb (x =? y)).
    unfold fast_equal_to_rr. rewrite bind_iff. rewrite UL, UR. split.
    + intros (b & HB & H). apply cross_iff in HB as (x & y & N & HB). exists x, y. split; auto. apply ok_bool in HB, H. subst.
      destruct (den l =? 0), (den r =? 0); cbn; rewrite ?andb_true_r, ?andb_false_r; reflexivity.
    + intros (x & y & N & ->). eexists. split; [apply cross_iff; exists x, y; split; [exact N|reflexivity]|].
      destruct (den l =? 0), (den r =? 0); cbn; rewrite ?andb_true_r, ?andb_false_r; reflexivity.
  - change (fast_less_rr t l r = Ok v <-> exists x y, numerators t false (RR l r) x y /\ v = if (den l =? 0) || (den r =? 0) then false else x <? y).
    unfold fast_less_rr. rewrite cross_iff. rewrite UL, UR.
    split; intros (x & y & N & H); exists x, y; (split; [exact N|]); [apply ok_bool in H|apply ok_bool]; rewrite H;
      destruct (den l =? 0), (den r =? 0); cbn; rewrite ?andb_true_r, ?andb_false_r; reflexivity.
  - change (fast_less_equal_rr t l r = Ok v <-> exists x y, numerators t false (RR l r) x y /\ v = if (den l =? 0) || (den r =? 0) then false else x <=? y).
    unfold fast_less_equal_rr. rewrite cross_iff. rewrite UL, UR.
    split; intros (x & y & N & H); exists x, y; (split; [exact N|]); [apply ok_bool in H|apply ok_bool]; rewrite H;
      destruct (den l =? 0), (den r =? 0); cbn; rewrite ?andb_true_r, ?andb_false_r; reflexivity.
  - change (fast_less_rr t r l = Ok v <-> exists x y, numerators t false (RR l r) x y /\ v = if (den l =? 0) || (den r =? 0) then false else y <? x).
    unfold fast_less_rr. rewrite cross_iff. rewrite UL, UR.
    split; intros (x & y & [N1 N2] & H); exists y, x; (split; [now split|]); [apply ok_bool in H|apply ok_bool]; rewrite H;
      destruct (den l =? 0), (den r =? 0); cbn; rewrite ?andb_true_r, ?andb_false_r; reflexivity.
  - change (fast_less_equal_rr t r l = Ok v <-> exists x y, numerators t false (RR l r) x y /\ v = if (den l =? 0) || (den r =? 0) then false else y <=? x).
    unfold fast_less_equal_rr. rewrite cross_iff. rewrite UL, UR.
    split; intros (x & y & [N1 N2] & H); exists y, x; (split; [now split|]); [apply ok_bool in H|apply ok_bool]; rewrite H;
      destruct (den l =? 0), (den r =? 0); cbn; rewrite ?andb_true_r, ?andb_false_r; reflexivity.
Qed.

Lemma numerators_swap : forall t l r x y, numerators t true (RR l r) x y <-> numerators t true (RR r l) y x.
Proof. intros t l r x y. unfold numerators. cbn [uses_lcm andb two_fractions left_of right_of]. rewrite (Z.lcm_comm (den l)). tauto. Qed.

Lemma safe_cmp_rr : forall t op l r v, wf_rep t -> wf_raw t l -> wf_raw t r ->
  p_cmp safe t op (RR l r) = Ok v <-> decides t true op (RR l r) v.
Proof.
  intros t op l r v W WL WR.
  assert (UL : is_undefined l = (den l =? 0)) by apply negb_involutive. assert (UR : is_undefined r = (den r =? 0)) by apply negb_involutive.
  unfold decides. cbn [uses_lcm andb two_fractions left_of right_of].
  destruct ((den l =? 0) || (den r =? 0)) eqn:E.
  - destruct op.
    + change (safe_equal_to_rr t l r = Ok v <-> v = false). unfold safe_equal_to_rr. rewrite UL, UR, E. apply ok_bool.
    + change ((do b <- safe_equal_to_rr t l r; Ok (negb b)) = Ok v <-> v = true). unfold safe_equal_to_rr. rewrite UL, UR, E. apply ok_bool.
    + change (safe_less_rr t l r = Ok v <-> v = false). unfold safe_less_rr. rewrite UL, UR, E. apply ok_bool.
    + change (safe_less_equal_rr t l r = Ok v <-> v = false). unfold safe_less_equal_rr. rewrite UL, UR, E. apply ok_bool.
    + change (safe_less_rr t r l = Ok v <-> v = false). unfold safe_less_rr. rewrite UL, UR, orb_comm, E. apply ok_bool.
    + change (safe_less_equal_rr t r l = Ok v <-> v = false). unfold safe_less_equal_rr. rewrite UL, UR, orb_comm, E. apply ok_bool.
  - destruct op.
    + change (safe_equal_to_rr t l r = Ok v <-> exists x y, numerators t true (RR l r) x y /\ v = (x =? y)).
      unfold safe_equal_to_rr. rewrite UL, UR, E, least_iff by auto.
      split; intros (x & y & N & H); exists x, y; (split; [exact N|now apply ok_bool]).
    + change ((do b <- safe_equal_to_rr t l r; Ok (negb b)) = Ok v <-> exists x y, numerators t true (RR l r) x y /\ v = negb (x =? y)).
      unfold safe_equal_to_rr. rewrite UL, UR, E, bind_iff. split.
      * intros (b & HB & H). apply least_iff in HB as (x & y & N & HB); auto. exists x, y. split; [exact N|]. apply ok_bool in H, HB. congruence.
      * intros (x & y & N & ->). exists (x =? y). split; auto. apply least_iff; auto. now exists x, y.
    + change (safe_less_rr t l r = Ok v <-> exists x y, numerators t true (RR l r) x y /\ v = (x <? y)).
      unfold safe_less_rr. rewrite UL, UR, E, least_iff by auto.
      split; intros (x & y & N & H); exists x, y; (split; [exact N|now apply ok_bool]).
    + change (safe_less_equal_rr t l r = Ok v <-> exists x y, numerators t true (RR l r) x y /\ v = (x <=? y)).
      unfold safe_less_equal_rr. rewrite UL, UR, E, least_iff by auto.
      split; intros (x & y & N & H); exists x, y; (split; [exact N|now apply ok_bool]).
    + change (safe_less_rr t r l = Ok v <-> exists x y, numerators t true (RR l r) x y /\ v = (y <? x)).
      unfold safe_less_rr. rewrite UL, UR, orb_comm, E, least_iff by auto.
      split; intros (x & y & N & H); exists y, x; (split; [now apply numerators_swap|now apply ok_bool]).
    + change (safe_less_equal_rr t r l = Ok v <-> exists x y, numerators t true (RR l r) x y /\ v = (y <=? x)).
      unfold safe_less_equal_rr. rewrite UL, UR, orb_comm, E, least_iff by auto.
      split; intros (x & y & N & H); exists y, x; (split; [now apply numerators_swap|now apply ok_bool]).
Qed.

Lemma fast_cmp_int : forall t op a v, wf_rep t -> wf_args t a -> two_fractions a = false ->
  p_cmp fast t op a = Ok v <-> decides t false op a v.
Proof.
  intros t op a v W A E. rewrite decides_cross. destruct a as [l r|l z|z r]; [discriminate| |]; destruct A as [A1 A2]; cbn [left_of right_of den].
  - assert (UL : is_defined l = negb (den l =? 0)) by reflexivity. change (1 =? 0) with false. rewrite orb_false_r.
    assert (K : forall f : Z -> bool, (exists x y, numerators t false (RI l z) x y /\ v = (if den l =? 0 then match op with Ne => true | _ => false end else int_cmp op x y)) <->
                       exists y, holds t (z * den l) y /\ v = (if den l =? 0 then match op with Ne => true | _ => false end else int_cmp op (num l) y)).
    { intros _. split; [intros (x & y & N & H); apply numerators_ri in N as [-> N]; auto; now exists y|].
      intros (y & N & H). exists (num l), y. split; [now apply numerators_ri|exact H]. }
    rewrite K by exact (fun _ => true). clear K. destruct op.
    1: change (fast_equal_to_ri t l z = Ok v <-> exists y, holds t (z * den l) y /\ v = if den l =? 0 then false else num l =? y); unfold fast_equal_to_ri.
    2: change ((do b <- fast_equal_to_ri t l z; Ok (negb b)) = Ok v <-> exists y, holds t (z * den l) y /\ v = if den l =? 0 then true else negb (num l =? y)); unfold fast_equal_to_ri.
    3: change (fast_less_ri t l z = Ok v <-> exists y, holds t (z * den l) y /\ v = if den l =? 0 then false else num l <? y); unfold fast_less_ri.
    4: change (fast_less_equal_ri t l z = Ok v <-> exists y, holds t (z * den l) y /\ v = if den l =? 0 then false else num l <=? y); unfold fast_less_equal_ri.
    5: change (fast_less_ir t z l = Ok v <-> exists y, holds t (z * den l) y /\ v = if den l =? 0 then false else y <? num l); unfold fast_less_ir.
    6: change (fast_less_equal_ir t z l = Ok v <-> exists y, holds t (z * den l) y /\ v = if den l =? 0 then false else y <=? num l); unfold fast_less_equal_ir.
    2: rewrite bind_assoc; cbn [bind].
    all: rewrite bind_iff, UL; split; intros (y & N & H); exists y; (split; [now apply arith_holds|]); [apply ok_bool in H; rewrite H|apply ok_bool; rewrite H];
      destruct (den l =? 0); cbn; rewrite ?andb_true_r, ?andb_false_r; reflexivity.
  - assert (UL : is_defined r = negb (den r =? 0)) by reflexivity. change (1 =? 0) with false. cbn [orb].
    assert (K : forall f : Z -> bool, (exists x y, numerators t false (IR z r) x y /\ v = (if den r =? 0 then match op with Ne => true | _ => false end else int_cmp op x y)) <->
                       exists y, holds t (z * den r) y /\ v = (if den r =? 0 then match op with Ne => true | _ => false end else int_cmp op y (num r))).
    { intros _. split; [intros (x & y & N & H); apply numerators_ir in N as [-> N]; auto; now exists x|].
      intros (y & N & H). exists y, (num r). split; [now apply numerators_ir|exact H]. }
    rewrite K by exact (fun _ => true). clear K. destruct op.
    1: change (fast_equal_to_ri t r z = Ok v <-> exists y, holds t (z * den r) y /\ v = if den r =? 0 then false else y =? num r); unfold fast_equal_to_ri.
    2: change ((do b <- fast_equal_to_ri t r z; Ok (negb b)) = Ok v <-> exists y, holds t (z * den r) y /\ v = if den r =? 0 then true else negb (y =? num r)); unfold fast_equal_to_ri.
    3: change (fast_less_ir t z r = Ok v <-> exists y, holds t (z * den r) y /\ v = if den r =? 0 then false else y <? num r); unfold fast_less_ir.
    4: change (fast_less_equal_ir t z r = Ok v <-> exists y, holds t (z * den r) y /\ v = if den r =? 0 then false else y <=? num r); unfold fast_less_equal_ir.
    5: change (fast_less_ri t r z = Ok v <-> exists y, holds t (z * den r) y /\ v = if den r =? 0 then false else num r <? y); unfold fast_less_ri.
    6: change (fast_less_equal_ri t r z = Ok v <-> exists y, holds t (z * den r) y /\ v = if den r =? 0 then false else num r <=? y); unfold fast_less_equal_ri.
    2: rewrite bind_assoc; cbn [bind].
    all: rewrite bind_iff, UL; split; intros (y & N & H); exists y; (split; [now apply arith_holds|]); [apply ok_bool in H; rewrite H|apply ok_bool; rewrite H];
      rewrite ?(Z.eqb_sym y); destruct (den r =? 0); cbn; rewrite ?andb_true_r, ?andb_false_r; reflexivity.
Qed.

Theorem bottom_cmp : forall b t op a v, b = Safe \/ b = Fast -> wf_rep t -> wf_args t a ->
  p_cmp (denote b) t op a = Ok v <-> decides t (on_lcm b) op a v.
Proof.
  intros b t op a v B W A.
  assert (DI : two_fractions a = false -> decides t true op a v <-> decides t false op a v).
  { intros E. unfold decides, numerators, uses_lcm. rewrite E. cbn [andb]. reflexivity. }
  destruct B as [-> | ->]; cbn [denote on_lcm bottom]; destruct a as [l r|l z|z r].
  - destruct A. now apply safe_cmp_rr.
  - rewrite int_cmp_same, DI by auto. now apply fast_cmp_int.
  - rewrite int_cmp_same, DI by auto. now apply fast_cmp_int.
  - apply fast_cmp_rr.
  - now apply fast_cmp_int.
  - now apply fast_cmp_int.
Qed.

(** Layers. *)
Lemma gcd_holds : forall t a b w, wf_rep t -> std_gcd t a b = Ok w <-> Z.abs a <= rmax t /\ Z.abs b <= rmax t /\ w = Z.gcd a b.
Proof.
  intros t a b w W. unfold std_gcd.
  assert (R : forall z, 0 <= z -> in_rep t z = true <-> z <= rmax t).
  { intros z Z0. split; intros H; [apply in_rep_iff in H; lia|apply rep_range; auto]. }
  destruct (in_rep t (Z.abs a) && in_rep t (Z.abs b)) eqn:E.
  - rewrite !andb_true_iff in E. destruct E as [E1 E2]. apply R in E1; [|lia]. apply R in E2; [|lia].
    split; [intros H; injection H as <-; auto|now intros (_ & _ & ->)].
  - split; [discriminate|]. intros (A & B & _). apply R in A; [|lia]. apply R in B; [|lia]. rewrite A, B in E. discriminate.
Qed.

Lemma exact_quot : forall t a g, wf_rep t -> in_rep t a = true -> 0 < g -> (g | a) -> m_div t a g = Ok (a / g) /\ in_rep t (a / g) = true.
Proof.
  intros t a g W IA G [k ->]. unfold m_div. destruct (Z.eqb_spec g 0); [lia|]. rewrite Z.quot_mul, Z.div_mul by lia.
  assert (I : in_rep t k = true).
  { apply in_rep_iff in IA. apply in_rep_iff. unfold rmin, rmax in *. unfold wf_rep in W.
    destruct (rsigned t); [pose proof (Z.pow_pos_nonneg 2 (rbits t - 1))|pose proof (Z.pow_pos_nonneg 2 (rbits t))]; nia. }
  split; auto. now apply arith_in.
Qed.

Lemma neg_in : forall t z, wf_rep t -> in_rep t z = true -> Z.abs z <= rmax t -> rsigned t = true -> arith t (- z) = Ok (- z).
Proof.
  intros t z W I A S. apply arith_in; auto. apply in_rep_iff in I. apply in_rep_iff. unfold rmin, rmax in *. rewrite S in *. lia.
Qed.

Lemma layer_iff : forall t l v r, wf_rep t -> wf_raw t v ->
  layer_raw t v l = Ok r <-> reducible t l v /\ r = lowest l v.
Proof.
  intros t l v r W [I1 I2].
  assert (KEEP : forall r, reduce_ignore_signs t v = Ok r <-> reducible t Keeping v /\ r = lowest Keeping v).
  { intros x. unfold reduce_ignore_signs, is_undefined, is_defined, reducible, lowest. rewrite negb_involutive. destruct (Z.eqb_spec (den v) 0) as [Z0|N0].
    - split; [intros H; injection H as <-; auto|now intros [_ ->]].
    - assert (G : 0 < Z.gcd (num v) (den v)).
      { pose proof (Z.gcd_nonneg (num v) (den v)). pose proof (Z.gcd_eq_0_r (num v) (den v)). lia. }
      destruct (exact_quot t (num v) _ W I1 G (Z.gcd_divide_l _ _)) as [Q1 _].
      destruct (exact_quot t (den v) _ W I2 G (Z.gcd_divide_r _ _)) as [Q2 _].
      rewrite bind_iff. split.
      + intros (g & HG & H). apply gcd_holds in HG as (A & B & ->); auto. rewrite Q1 in H. cbn [bind] in H. rewrite Q2 in H. cbn [bind] in H.
        injection H as <-. auto.
      + intros [[D|[D|[A B]]] ->]; [discriminate|contradiction|]. exists (Z.gcd (num v) (den v)). split; [now apply gcd_holds|].
        rewrite Q1. cbn [bind]. now rewrite Q2. }
  destruct l; cbn [layer_raw reduce].
  - unfold reducible, lowest. split; [intros H; injection H as <-; auto|now intros [_ ->]].
  - apply KEEP.
  - unfold reduce_normalize_signs. rewrite bind_iff. unfold normalize_signs.
    assert (AR : forall x, reducible t Keeping x <-> reducible t Normalising x) by (intros x; unfold reducible; intuition congruence).
    assert (MAIN : reducible t Keeping v ->
      (if den (lowest Keeping v) >? 0 then Ok (lowest Keeping v)
       else do n <- m_neg t (num (lowest Keeping v)); do d <- m_neg t (den (lowest Keeping v)); Ok (mkRaw n d)) = Ok (lowest Normalising v)).
    { intros RD. unfold lowest. destruct (Z.eqb_spec (den v) 0) as [Z0|N0].
      - cbn [den num]. change (0 >? 0) with false. unfold m_neg. change (- 0) with 0.
        assert (I0 : in_rep t 0 = true).
        { apply in_rep_iff. unfold rmin, rmax. unfold wf_rep in W. pose proof (Z.pow_pos_nonneg 2 (rbits t - 1)). pose proof (Z.pow_pos_nonneg 2 (rbits t)). destruct (rsigned t); lia. }
        rewrite arith_in by auto. reflexivity.
      - assert (G : 0 < Z.gcd (num v) (den v)).
        { pose proof (Z.gcd_nonneg (num v) (den v)). pose proof (Z.gcd_eq_0_r (num v) (den v)). lia. }
        destruct (Z.gcd_divide_l (num v) (den v)) as [n KN]. destruct (Z.gcd_divide_r (num v) (den v)) as [d KD].
        set (g := Z.gcd (num v) (den v)) in *.
        destruct RD as [D|[D|[A B]]]; [discriminate|contradiction|].
        cbn [den num]. rewrite KN, KD in *. rewrite !Z.div_mul by lia.
        destruct (Z.ltb_spec (d * g) 0) as [LT|GE].
        + rewrite !Z.div_opp_r_z, !Z.div_mul by (rewrite ?Z.mod_mul; lia).
          destruct (Z.gtb_spec d 0) as [P|P]; [nia|].
          assert (S : rsigned t = true).
          { apply in_rep_iff in I2. unfold rmin in I2. destruct (rsigned t); auto. lia. }
          assert (J : in_rep t n = true /\ in_rep t d = true /\ Z.abs n <= rmax t /\ Z.abs d <= rmax t).
          { apply in_rep_iff in I1. apply in_rep_iff in I2. rewrite !in_rep_iff. unfold rmin, rmax in *. rewrite S in *. nia. }
          destruct J as (J1 & J2 & J3 & J4). unfold m_neg. rewrite !neg_in by auto. reflexivity.
        + rewrite !Z.div_mul by lia. destruct (Z.gtb_spec d 0) as [P|P]; [reflexivity|]. nia. }
    split.
    + intros (x & HX & H). apply KEEP in HX as [RD ->]. rewrite (MAIN RD) in H. injection H as <-. split; auto. now apply AR.
    + intros [RD ->]. apply AR in RD. exists (lowest Keeping v). split; [now apply KEEP|now apply MAIN].
Qed.

Lemma layer_args_iff : forall t l a b, wf_rep t -> wf_args t a ->
  layer_args t a l = Ok b <-> reducible_args t l a /\ b = lowest_args l a.
Proof.
  intros t l a b W A.
  assert (SH : layer_args t a l = match a with
    | RR x y => do x <- layer_raw t x l; do y <- layer_raw t y l; Ok (RR x y)
    | RI x z => do x <- layer_raw t x l; Ok (RI x z)
    | IR z y => do y <- layer_raw t y l; Ok (IR z y) end).
  { destruct l, a; reflexivity. }
  rewrite SH. destruct a as [x y|x z|z y]; destruct A as [A1 A2]; cbn [reducible_args lowest_args].
  - rewrite bind_iff. split.
    + intros (x' & HX & H). apply bind_iff in H as (y' & HY & H). apply layer_iff in HX as [RX ->]; auto. apply layer_iff in HY as [RY ->]; auto.
      injection H as <-. auto.
    + intros [[RX RY] ->]. exists (lowest l x). split; [apply layer_iff; auto|]. apply bind_iff. exists (lowest l y). split; [apply layer_iff; auto|reflexivity].
  - rewrite bind_iff. split.
    + intros (x' & HX & H). apply layer_iff in HX as [RX ->]; auto. injection H as <-. auto.
    + intros [RX ->]. exists (lowest l x). split; [apply layer_iff; auto|reflexivity].
  - rewrite bind_iff. split.
    + intros (x' & HX & H). apply layer_iff in HX as [RX ->]; auto. injection H as <-. auto.
    + intros [RX ->]. exists (lowest l y). split; [apply layer_iff; auto|reflexivity].
Qed.

Theorem arith_outcome : forall o t op a v, wf_rep t -> wf_args t a ->
  p_arith (denote o) t op a = Ok v <->
  reducible_args t (effect (input_modes o)) a /\
  exists x, returns t (on_lcm o) op (lowest_args (effect (input_modes o)) a) x /\
    reducible t (effect (output_modes o)) x /\ v = lowest (effect (output_modes o)) x.
Proof.
  intros o t op a v W A. rewrite arith_shape by auto.
  assert (OB : on_lcm (bottom o) = on_lcm o) by (unfold on_lcm; destruct (bottom_base o) as [-> | ->]; reflexivity).
  rewrite bind_iff. split.
  - intros (b & HB & H). pose proof (layer_args_wf _ _ _ _ W A HB) as WB. apply layer_args_iff in HB as [RA ->]; auto.
    split; auto. apply bind_iff in H as (x & HX & H). pose proof (arith_wf _ _ _ _ _ W WB HX) as WX.
    apply bottom_arith in HX; auto using bottom_base. rewrite OB in HX. apply layer_iff in H as [RX ->]; auto. now exists x.
  - intros [RA (x & HX & RX & ->)]. exists (lowest_args (effect (input_modes o)) a).
    assert (HB : layer_args t a (effect (input_modes o)) = Ok (lowest_args (effect (input_modes o)) a)) by (apply layer_args_iff; auto).
    pose proof (layer_args_wf _ _ _ _ W A HB) as WB. split; auto. rewrite <- OB in HX. apply bottom_arith in HX; auto using bottom_base.
    apply bind_iff. exists x. split; auto. apply layer_iff; auto. now apply (arith_wf _ _ _ _ _ W WB HX).
Qed.

Theorem cmp_outcome : forall o t op a v, wf_rep t -> wf_args t a ->
  p_cmp (denote o) t op a = Ok v <->
  reducible_args t (effect (input_modes o)) a /\ decides t (on_lcm o) op (lowest_args (effect (input_modes o)) a) v.
Proof.
  intros o t op a v W A. rewrite cmp_shape by auto.
  assert (OB : on_lcm (bottom o) = on_lcm o) by (unfold on_lcm; destruct (bottom_base o) as [-> | ->]; reflexivity).
  rewrite bind_iff. split.
  - intros (b & HB & H). pose proof (layer_args_wf _ _ _ _ W A HB) as WB. apply layer_args_iff in HB as [RA ->]; auto.
    split; auto. apply bottom_cmp in H; auto using bottom_base. now rewrite OB in H.
  - intros [RA H]. exists (lowest_args (effect (input_modes o)) a).
    assert (HB : layer_args t a (effect (input_modes o)) = Ok (lowest_args (effect (input_modes o)) a)) by (apply layer_args_iff; auto).
    pose proof (layer_args_wf _ _ _ _ W A HB) as WB. split; auto. apply bottom_cmp; auto using bottom_base. now rewrite OB.
Qed.

Theorem negate_outcome : forall o t v r, wf_rep t -> wf_raw t v ->
  p_negate (denote o) t v = Ok r <->
  exists i x n, i = match effect (input_modes o) with Absent => Absent | _ => Normalising end /\
    reducible t i v /\ x = lowest i v /\ holds t (- num x) n /\
    reducible t (effect (output_modes o)) (mkRaw n (den x)) /\ r = lowest (effect (output_modes o)) (mkRaw n (den x)).
Proof.
  intros o t v r W A. rewrite negate_shape by auto. fold (negate_layer (effect (input_modes o))).
  assert (BN : forall y z, p_negate (denote (bottom o)) t y = Ok z <-> exists n, holds t (- num y) n /\ z = mkRaw n (den y)).
  { intros y z. destruct (bottom_base o) as [-> | ->]; cbn [denote]; cbn [p_negate safe fast]; unfold safe_negate, fast_negate; rewrite bind_iff;
    (split; [intros (n & HN & H); exists n; split; [now apply arith_holds|now injection H]|intros (n & HN & ->); exists n; split; [now apply arith_holds|reflexivity]]). }
  rewrite bind_iff. split.
  - intros (b & HB & H). pose proof (layer_raw_wf _ _ _ _ W A HB) as WB. apply layer_iff in HB as [RA ->]; auto.
    apply bind_iff in H as (x & HX & H). pose proof (negate_wf _ _ _ _ W WB HX) as WX. apply BN in HX as (n & HN & ->).
    apply layer_iff in H as [RX ->]; auto. now exists (negate_layer (effect (input_modes o))), (lowest (negate_layer (effect (input_modes o))) v), n.
  - intros (i & x & n & -> & RA & -> & HN & RX & ->). set (i := negate_layer (effect (input_modes o))) in *. change (reducible t i v) in RA.
    assert (HB : layer_raw t v i = Ok (lowest i v)) by (apply layer_iff; auto).
    pose proof (layer_raw_wf _ _ _ _ W A HB) as WB. exists (lowest i v). split; auto.
    assert (HX : p_negate (denote (bottom o)) t (lowest i v) = Ok (mkRaw n (den (lowest i v)))) by (apply BN; exists n; auto).
    apply bind_iff. exists (mkRaw n (den (lowest i v))). split; auto. apply layer_iff; auto. now apply (negate_wf _ _ _ _ W WB HX).
Qed.
