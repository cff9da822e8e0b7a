(** No undefined behaviour as long as the textbook cross products fit. *)

From Coq Require Import ZArith QArith List Bool Lia.
From Verif Require Import Machine Raw Ops Spec Fraction Tight_spec Mixed_spec.
From Verif Require Import Machine_proofs Value_proofs Ops_proofs Algebra_proofs Total_proofs Fraction_proofs.
Import ListNotations.
Open Scope Z_scope.

Lemma abs_fits : forall t x, signed_rep t -> Z.abs x <= rmax t -> in_rep t x = true.
Proof.
  intros t x [W S] H. pose proof (rmin_rmax_signed t S). apply in_rep_iff. lia.
Qed.

Lemma smul : forall t x y, signed_rep t -> Z.abs (x * y) <= rmax t -> m_mul t x y = Ok (x * y).
Proof. intros t x y [W S] H. apply exec_mul; auto. congruence. Qed.
Lemma sadd : forall t x y, signed_rep t -> Z.abs (x + y) <= rmax t -> m_add t x y = Ok (x + y).
Proof. intros t x y [W S] H. apply exec_add; auto. congruence. Qed.
Lemma ssub : forall t x y, signed_rep t -> Z.abs (x - y) <= rmax t -> m_sub t x y = Ok (x - y).
Proof. intros t x y [W S] H. apply exec_sub; auto. congruence. Qed.
Lemma srem : forall t x y, signed_rep t -> y <> 0 -> Z.abs x <= rmax t -> m_rem t x y = Ok (Z.rem x y).
Proof. intros t x y [W S] N H. apply exec_rem; auto. congruence. Qed.

Lemma rem_le : forall x y, Z.abs (Z.rem x y) <= Z.abs x.
Proof.
  intros x y. destruct (Z.eq_dec y 0) as [->|N].
  - rewrite Zquot.Zrem_0_r. lia.
  - rewrite <- Z.rem_abs by auto. apply Z.rem_le; lia.
Qed.

(** The lcm is the product divided by something. *)
Lemma lcm_cofactor : forall a b, a <> 0 -> b <> 0 ->
  exists k, Z.lcm a b = a * k /\ Z.abs k <= Z.abs b /\ k <> 0 /\ Z.quot (Z.lcm a b) a = k.
Proof.
  intros a b A B. destruct (Z.divide_lcm_l a b) as [k K].
  assert (L : Z.lcm a b <> 0) by (intros X; apply Z.lcm_eq_0 in X; lia).
  assert (P : 0 <= Z.lcm a b) by apply Z.lcm_nonneg.
  exists k. rewrite Z.mul_comm in K. repeat split; auto.
  - assert (Z.abs (a * b) = Z.lcm a b * Z.gcd a b).
    { destruct (gcd_parts a b B) as [G1 [G2 [G3 G4]]].
      unfold Z.lcm. rewrite Z.abs_mul. destruct (Z.gcd_divide_r a b) as [c C].
      rewrite C at 2. rewrite Z.div_mul by lia. rewrite Z.abs_mul.
      rewrite C at 1. rewrite (Z.abs_mul c). rewrite (Z.abs_eq (Z.gcd a b)) by lia. ring. }
    destruct (gcd_parts a b B) as [G1 _]. rewrite K, Z.abs_mul in H. rewrite K in P.
    assert (a * k = Z.abs a * Z.abs k) by (rewrite <- Z.abs_mul; lia). nia.
  - intros ->. rewrite Z.mul_0_r in K. auto.
  - rewrite K, Z.mul_comm. now apply Z.quot_mul.
Qed.

Lemma exec_quot : forall t m d k, signed_rep t -> d <> 0 -> m = d * k -> Z.abs k <= rmax t ->
  m_div t m d = Ok k.
Proof.
  intros t m d k SR D -> K. pose proof SR as [W S]. unfold m_div.
  assert (Q : Z.quot (d * k) d = k) by (rewrite Z.mul_comm; now apply Z.quot_mul).
  destruct (Z.eqb_spec d 0); [contradiction|]. rewrite Q.
  unfold arith. rewrite (abs_fits t k SR K). destruct (rsigned t); [|discriminate]. reflexivity.
Qed.

(** The common part of the safe + - % == < <=. *)
Lemma safe_common : forall t l r, signed_rep t -> den l <> 0 -> den r <> 0 ->
  Z.abs (num l * den r) <= rmax t -> Z.abs (num r * den l) <= rmax t -> Z.abs (den l * den r) <= rmax t ->
  Z.abs (den l) <= rmax t -> Z.abs (den r) <= rmax t ->
  exists k1 k2, let m := Z.lcm (den l) (den r) in
    std_lcm t (den l) (den r) = Ok m /\
    m_div t m (den l) = Ok k1 /\ m_mul t k1 (num l) = Ok (k1 * num l) /\
    m_div t m (den r) = Ok k2 /\ m_mul t k2 (num r) = Ok (k2 * num r) /\
    Z.abs (k1 * num l) <= Z.abs (num l * den r) /\ Z.abs (k2 * num r) <= Z.abs (num r * den l) /\
    Z.abs m <= Z.abs (den l * den r) /\ k2 <> 0.
Proof.
  intros t l r SR NL NR H1 H2 H3 H4 H5. pose proof SR as [W S].
  destruct (lcm_cofactor _ _ NL NR) as [k1 [A1 [A2 [A3 A4]]]].
  destruct (lcm_cofactor _ _ NR NL) as [k2 [B1 [B2 [B3 B4]]]].
  rewrite Z.lcm_comm in B1. exists k1, k2. cbn zeta.
  assert (M : Z.abs (Z.lcm (den l) (den r)) <= Z.abs (den l * den r)).
  { rewrite A1, !Z.abs_mul. apply Z.mul_le_mono_nonneg_l; [apply Z.abs_nonneg|exact A2]. }
  assert (P1 : Z.abs (k1 * num l) <= Z.abs (num l * den r)).
  { rewrite !Z.abs_mul, (Z.mul_comm (Z.abs k1)). apply Z.mul_le_mono_nonneg_l; [apply Z.abs_nonneg|exact A2]. }
  assert (P2 : Z.abs (k2 * num r) <= Z.abs (num r * den l)).
  { rewrite !Z.abs_mul, (Z.mul_comm (Z.abs k2)). apply Z.mul_le_mono_nonneg_l; [apply Z.abs_nonneg|exact B2]. }
  repeat split; auto.
  - apply exec_lcm; auto. clear - M H3. lia.
  - apply exec_quot; auto. clear - A2 H5. lia.
  - apply smul; auto. clear - P1 H1. lia.
  - apply exec_quot; auto. clear - B2 H4. lia.
  - apply smul; auto. clear - P2 H2. lia.
Qed.

Lemma one_abs : forall t, wf_rep t -> Z.abs 1 <= rmax t.
Proof. intros t W. pose proof (rmax_big t W). lia. Qed.

Definition base_tight (p : policy) : Prop := forall t op a,
  signed_rep t -> products_fit (rmax t) op (lraw a) (rraw a) ->
  exists r, p_arith p t op a = Ok r /\ Z.abs (num r) <= rmax t /\ Z.abs (den r) <= rmax t.

Lemma split_sum : forall x y M, Z.abs x + Z.abs y <= M ->
  Z.abs x <= M /\ Z.abs y <= M /\ Z.abs (x + y) <= M /\ Z.abs (y + x) <= M /\ Z.abs (x - y) <= M.
Proof. intros. lia. Qed.

Lemma rem_fit : forall x y M, Z.abs x <= M -> Z.abs (Z.rem x y) <= M.
Proof. intros x y M H. pose proof (rem_le x y). lia. Qed.

Ltac bnd :=
  solve [ assumption | rewrite Z.mul_comm; assumption | apply rem_fit; assumption
        | apply rem_fit; rewrite Z.mul_comm; assumption
        | intros ?; match goal with E : _ * _ = 0 |- _ => apply Z.mul_eq_0 in E; destruct E; contradiction end ].

Ltac tight_go SR :=
  repeat (first [ rewrite (smul _ _ _ SR) by bnd | rewrite (sadd _ _ _ SR) by bnd
               | rewrite (ssub _ _ _ SR) by bnd | rewrite (srem _ _ _ SR) by bnd ]; cbn [bind]);
  (eexists; split; [reflexivity|]; cbn [num den]; split; bnd).

Ltac prep H :=
  repeat match type of H with _ /\ _ => let X := fresh "X" in destruct H as [X H]; try prep X end.
Ltac sums :=
  match goal with
  | H : Z.abs _ + Z.abs _ <= _ |- _ => apply split_sum in H; prep H
  | _ => idtac
  end.

Lemma fast_tight : base_tight fast.
Proof.
  intros t op a SR H. destruct a as [[a b] [c d]|[a b] z|z [c d]]; unfold products_fit in H;
    cbn [lraw rraw num den] in H; destruct op; rewrite ?Z.mul_1_r, ?Z.mul_1_l in H; cbn [p_arith fast p_plus_rr p_plus_ri p_plus_ir p_minus_rr
      p_minus_ri p_minus_ir p_multiplies_rr p_multiplies_ri p_multiplies_ir p_divides_rr p_divides_ri p_divides_ir
      p_modulus_rr p_modulus_ri p_modulus_ir];
    unfold fast_plus_rr, fast_plus_ri, fast_plus_ir, fast_minus_rr, fast_minus_ri, fast_minus_ir,
      fast_multiplies_rr, fast_multiplies_ri, fast_multiplies_ir, fast_divides_rr, fast_divides_ri,
      fast_divides_ir, fast_modulus_rr, fast_modulus_ri, fast_modulus_ir, fast_plus_ri, fast_multiplies_ri; cbn [num den];
    prep H; sums.
  all: tight_go SR.
Qed.

Lemma safe_tight : base_tight safe.
Proof.
  intros t op a SR H. destruct a as [l r|[a b] z|z [c d]].
  { cbn [lraw rraw] in H. unfold products_fit in H. prep H.
    destruct op; cbn [p_arith safe p_plus_rr p_minus_rr p_multiplies_rr p_divides_rr p_modulus_rr];
      unfold safe_plus_rr, safe_minus_rr, safe_multiplies_rr, safe_divides_rr, safe_modulus_rr; prep H.
    - match goal with S : Z.abs (num l * den r) + Z.abs (num r * den l) <= _ |- _ => rename S into SS end.
      pose proof (split_sum _ _ _ SS) as [P1 [P2 _]].
      destruct (safe_common t l r SR) as [k1 [k2 [C1 [C2 [C3 [C4 [C5 [C6 [C7 [C8 C9]]]]]]]]]]; auto.
      assert (S' : Z.abs (k1 * num l) + Z.abs (k2 * num r) <= rmax t)
        by (eapply Z.le_trans; [apply Z.add_le_mono; [exact C6|exact C7]|exact SS]).
      apply split_sum in S'. prep S'.
      rewrite C1; cbn [bind]. rewrite C2; cbn [bind]. rewrite C3; cbn [bind]. rewrite C4; cbn [bind]. rewrite C5; cbn [bind].
      rewrite (sadd _ _ _ SR) by assumption. cbn [bind]. eexists. split; [reflexivity|]. cbn [num den]. split; [assumption|].
      eapply Z.le_trans; eassumption.
    - match goal with S : Z.abs (num l * den r) + Z.abs (num r * den l) <= _ |- _ => rename S into SS end.
      pose proof (split_sum _ _ _ SS) as [P1 [P2 _]].
      destruct (safe_common t l r SR) as [k1 [k2 [C1 [C2 [C3 [C4 [C5 [C6 [C7 [C8 C9]]]]]]]]]]; auto.
      assert (S' : Z.abs (k1 * num l) + Z.abs (k2 * num r) <= rmax t)
        by (eapply Z.le_trans; [apply Z.add_le_mono; [exact C6|exact C7]|exact SS]).
      apply split_sum in S'. prep S'.
      rewrite C1; cbn [bind]. rewrite C2; cbn [bind]. rewrite C3; cbn [bind]. rewrite C4; cbn [bind]. rewrite C5; cbn [bind].
      rewrite (ssub _ _ _ SR) by assumption. cbn [bind]. eexists. split; [reflexivity|]. cbn [num den]. split; [assumption|].
      eapply Z.le_trans; eassumption.
    - tight_go SR.
    - tight_go SR.
    - destruct (safe_common t l r SR) as [k1 [k2 [C1 [C2 [C3 [C4 [C5 [C6 [C7 [C8 C9]]]]]]]]]]; auto.
      assert (Z.abs (k1 * num l) <= rmax t) by (eapply Z.le_trans; eassumption).
      assert (Z.abs (Z.lcm (den l) (den r)) <= rmax t) by (eapply Z.le_trans; eassumption).
      rewrite C1; cbn [bind]. rewrite C2; cbn [bind]. rewrite C3; cbn [bind]. rewrite C4; cbn [bind]. rewrite C5; cbn [bind].
      tight_go SR. }
  all: unfold products_fit in H;
    cbn [lraw rraw num den] in H; destruct op; rewrite ?Z.mul_1_r, ?Z.mul_1_l in H; cbn [p_arith safe p_plus_rr p_plus_ri p_plus_ir p_minus_rr
      p_minus_ri p_minus_ir p_multiplies_rr p_multiplies_ri p_multiplies_ir p_divides_rr p_divides_ri p_divides_ir
      p_modulus_rr p_modulus_ri p_modulus_ir];
    unfold safe_plus_rr, safe_plus_ri, safe_plus_ir, safe_minus_rr, safe_minus_ri, safe_minus_ir,
      safe_multiplies_rr, safe_multiplies_ri, safe_multiplies_ir, safe_divides_rr, safe_divides_ri,
      safe_divides_ir, safe_modulus_rr, safe_modulus_ri, safe_modulus_ir, safe_plus_ri, safe_multiplies_ri; cbn [num den];
    prep H; sums.
  all: tight_go SR.
Qed.

Lemma abs_mul_mono : forall a b c d M, Z.abs a <= Z.abs c -> Z.abs b <= Z.abs d -> Z.abs (c * d) <= M ->
  Z.abs (a * b) <= M.
Proof.
  intros a b c d M A B H. rewrite Z.abs_mul in *. eapply Z.le_trans; [|exact H].
  apply Z.mul_le_mono_nonneg; auto; apply Z.abs_nonneg.
Qed.

Lemma products_fit_mono : forall M op l r l' r',
  Z.abs (num l') <= Z.abs (num l) -> Z.abs (den l') <= Z.abs (den l) ->
  Z.abs (num r') <= Z.abs (num r) -> Z.abs (den r') <= Z.abs (den r) ->
  (den l <> 0 -> den l' <> 0) -> (den r <> 0 -> den r' <> 0) -> (den r <> 0 -> num r <> 0 -> num r' <> 0) ->
  products_fit M op l r -> products_fit M op l' r'.
Proof.
  intros M op l r l' r' A B C D E F G H. unfold products_fit in *. destruct H as [H K]. split; [clear - A B C D H; lia|].
  destruct op; prep K; repeat split; auto;
    try (eapply abs_mul_mono; eassumption).
  1,2: eapply Z.le_trans; [apply Z.add_le_mono; [exact (abs_mul_mono _ _ _ _ _ A D (Z.le_refl _))|exact (abs_mul_mono _ _ _ _ _ C B (Z.le_refl _))]|eassumption].
Qed.

Lemma wf_of_bound : forall t a, signed_rep t ->
  (Z.abs (num (lraw a)) <= rmax t /\ Z.abs (den (lraw a)) <= rmax t /\
   Z.abs (num (rraw a)) <= rmax t /\ Z.abs (den (rraw a)) <= rmax t) -> wf_args t a.
Proof.
  intros t [l r|l z|z r] SR [A [B [C D]]]; cbn in *; repeat split; now apply abs_fits.
Qed.

Lemma reduce_args_bound : forall t a m, signed_rep t ->
  (Z.abs (num (lraw a)) <= rmax t /\ Z.abs (den (lraw a)) <= rmax t /\
   Z.abs (num (rraw a)) <= rmax t /\ Z.abs (den (rraw a)) <= rmax t) ->
  exists b, reduce_args t a m = Ok b /\
    Z.abs (num (lraw b)) <= Z.abs (num (lraw a)) /\ Z.abs (den (lraw b)) <= Z.abs (den (lraw a)) /\
    Z.abs (num (rraw b)) <= Z.abs (num (rraw a)) /\ Z.abs (den (rraw b)) <= Z.abs (den (rraw a)) /\
    (den (lraw a) <> 0 -> den (lraw b) <> 0) /\ (den (rraw a) <> 0 -> den (rraw b) <> 0) /\
    (den (rraw a) <> 0 -> num (rraw a) <> 0 -> num (rraw b) <> 0).
Proof.
  intros t a m SR H. pose proof (wf_of_bound t a SR H) as WA. destruct H as [A [B [C D]]]. pose proof SR as [W S].
  assert (K : forall v v', reduces_to m v v' -> Z.abs (num v') <= Z.abs (num v) /\ Z.abs (den v') <= Z.abs (den v) /\
    (den v <> 0 -> den v' <> 0) /\ (den v <> 0 -> num v <> 0 -> num v' <> 0)).
  { intros v v' R. pose proof (reduces_bound m v v' R). repeat split; try tauto.
    - intros N X. apply (reduces_den_zero m v v' R) in X. auto.
    - intros N X Y. destruct R as [[R _]|[_ [g [G1 [G2 _]]]]]; [auto|]. rewrite Y in G2. lia. }
  destruct a as [l r|l z|z r]; cbn [reduce_args lraw rraw] in *; destruct WA as [W1 W2].
  - destruct (reduce_total t l m) as [l' E1]; auto. destruct (reduce_total t r m) as [r' E2]; auto.
    rewrite E1; cbn [bind]; rewrite E2; cbn [bind]. exists (RR l' r'). split; auto. cbn [lraw rraw].
    apply reduce_spec in E1 as [_ [R1 _]]; auto. apply reduce_spec in E2 as [_ [R2 _]]; auto.
    apply K in R1. apply K in R2. tauto.
  - destruct (reduce_total t l m) as [l' E1]; auto.
    rewrite E1; cbn [bind]. exists (RI l' z). split; auto. cbn [lraw rraw].
    apply reduce_spec in E1 as [_ [R1 _]]; auto. apply K in R1. cbn [num den]. intuition lia.
  - destruct (reduce_total t r m) as [l' E1]; auto.
    rewrite E1; cbn [bind]. exists (IR z l'). split; auto. cbn [lraw rraw].
    apply reduce_spec in E1 as [_ [R1 _]]; auto. apply K in R1. cbn [num den]. intuition lia.
Qed.

Theorem denote_tight : forall o t op a, signed_rep t ->
  products_fit (rmax t) op (lraw a) (rraw a) ->
  exists r, p_arith (denote o) t op a = Ok r /\ Z.abs (num r) <= rmax t /\ Z.abs (den r) <= rmax t.
Proof.
  induction o as [| |o IH m|o IH m]; intros t op a SR H; cbn [denote].
  - now apply safe_tight.
  - now apply fast_tight.
  - destruct (reduce_args_bound t a m SR (proj1 H)) as [b [E K]]. rewrite ri_arith_eq, E. cbn [bind].
    apply IH; auto. eapply products_fit_mono; [..|exact H]; tauto.
  - destruct (IH t op a SR H) as [r [E [A B]]]. rewrite ro_arith_eq, E. cbn [bind].
    pose proof SR as [W S]. assert (WR : wf_raw t r) by (split; now apply abs_fits).
    destruct (reduce_total t r m) as [s F]; auto. exists s. split; auto.
    apply reduce_spec in F as [_ [R _]]; auto. apply reduces_bound in R. lia.
Qed.

(** Comparisons. *)
Lemma safe_cmp_rr : forall t l r op, signed_rep t -> cross_fit (rmax t) l r ->
  exists b, p_cmp safe t op (RR l r) = Ok b.
Proof.
  intros t l r op SR H. destruct H as [H1 [H2 [H3 [H4 [H5 [H6 H7]]]]]].
  assert (G : forall l r (f : Z -> Z -> bool), Z.abs (num l) <= rmax t -> Z.abs (den l) <= rmax t ->
    Z.abs (num r) <= rmax t -> Z.abs (den r) <= rmax t -> Z.abs (num l * den r) <= rmax t ->
    Z.abs (num r * den l) <= rmax t -> Z.abs (den l * den r) <= rmax t ->
    exists b, (if is_undefined l || is_undefined r then Ok false else
      do lcm <- std_lcm t (den l) (den r); do a <- m_div t lcm (den l); do a <- m_mul t a (num l);
      do b <- m_div t lcm (den r); do b <- m_mul t b (num r); Ok (f a b)) = Ok b).
  { clear - SR. intros l r f A1 A2 A3 A4 A5 A6 A7. destruct (is_undefined l) eqn:U1; [eexists; reflexivity|].
    destruct (is_undefined r) eqn:U2; [eexists; reflexivity|]. cbn [orb].
    assert (N1 : den l <> 0) by (intros X; apply is_undefined_iff in X; congruence).
    assert (N2 : den r <> 0) by (intros X; apply is_undefined_iff in X; congruence).
    destruct (safe_common t l r SR) as [k1 [k2 [C1 [C2 [C3 [C4 [C5 _]]]]]]]; auto.
    rewrite C1; cbn [bind]. rewrite C2; cbn [bind]. rewrite C3; cbn [bind]. rewrite C4; cbn [bind]. rewrite C5; cbn [bind].
    eexists; reflexivity. }
  assert (H7' : Z.abs (den r * den l) <= rmax t) by now rewrite Z.mul_comm.
  destruct op; cbn [p_cmp safe p_equal_to_rr p_not_equal_to_rr p_less_rr p_less_equal_rr p_greater_rr p_greater_equal_rr];
    unfold safe_not_equal_to_rr, safe_greater_rr, safe_greater_equal_rr.
  - now apply (G l r Z.eqb).
  - destruct (G l r Z.eqb) as [b E]; auto. unfold safe_equal_to_rr. rewrite E. eexists; reflexivity.
  - now apply (G l r Z.ltb).
  - now apply (G l r Z.leb).
  - now apply (G r l Z.ltb).
  - now apply (G r l Z.leb).
Qed.

Ltac unfold_goal :=
  cbn [p_cmp safe fast p_equal_to_rr p_not_equal_to_rr p_less_rr p_less_equal_rr p_greater_rr p_greater_equal_rr
    p_equal_to_ri p_not_equal_to_ri p_less_ri p_less_equal_ri p_greater_ri p_greater_equal_ri
    p_equal_to_ir p_not_equal_to_ir p_less_ir p_less_equal_ir p_greater_ir p_greater_equal_ir];
  unfold safe_not_equal_to_ri, safe_not_equal_to_ir, safe_not_equal_to_ri, safe_equal_to_ir, safe_equal_to_ri,
    safe_greater_ri, safe_greater_ir, safe_greater_equal_ri, safe_greater_equal_ir, safe_less_ri, safe_less_ir,
    safe_less_equal_ri, safe_less_equal_ir,
    fast_not_equal_to_rr, fast_not_equal_to_ri, fast_not_equal_to_ir, fast_not_equal_to_ri, fast_equal_to_ir,
    fast_equal_to_ri, fast_equal_to_rr,
    fast_greater_rr, fast_greater_ri, fast_greater_ir, fast_greater_equal_rr, fast_greater_equal_ri,
    fast_greater_equal_ir, fast_less_rr, fast_less_ri, fast_less_ir,
    fast_less_equal_rr, fast_less_equal_ri, fast_less_equal_ir; cbn [num den bind].

Ltac cmp_go SR :=
  repeat (rewrite (smul _ _ _ SR) by bnd; cbn [bind]); eexists; reflexivity.

Lemma base_cmp_tight : forall p t op a, p = safe \/ p = fast -> signed_rep t ->
  cross_fit (rmax t) (lraw a) (rraw a) -> exists b, p_cmp p t op a = Ok b.
Proof.
  intros p t op a [-> | ->] SR H.
  - destruct a as [l r|l z|z r]; [now apply safe_cmp_rr| |];
      destruct H as [H1 [H2 [H3 [H4 [H5 [H6 H7]]]]]]; cbn [lraw rraw num den] in *; rewrite ?Z.mul_1_r, ?Z.mul_1_l in *;
      destruct op; unfold_goal; cmp_go SR.
  - destruct a as [l r|l z|z r];
      destruct H as [H1 [H2 [H3 [H4 [H5 [H6 H7]]]]]]; cbn [lraw rraw num den] in *; rewrite ?Z.mul_1_r, ?Z.mul_1_l in *;
      destruct op; unfold_goal; cmp_go SR.
Qed.

Theorem denote_cmp_tight : forall o t op a, signed_rep t ->
  cross_fit (rmax t) (lraw a) (rraw a) -> exists b, p_cmp (denote o) t op a = Ok b.
Proof.
  induction o as [| |o IH m|o IH m]; intros t op a SR H; cbn [denote].
  - apply base_cmp_tight; auto.
  - apply base_cmp_tight; auto.
  - destruct (reduce_args_bound t a m SR) as [b [E [K1 [K2 [K3 [K4 _]]]]]]; [unfold cross_fit in H; tauto|].
    rewrite ri_cmp_eq, E. cbn [bind].
    apply IH; auto. unfold cross_fit in *. destruct H as [H1 [H2 [H3 [H4 [H5 [H6 H7]]]]]].
    repeat split; try (eapply Z.le_trans; eassumption); eapply abs_mul_mono; eassumption.
  - rewrite ro_cmp_eq. auto.
Qed.
