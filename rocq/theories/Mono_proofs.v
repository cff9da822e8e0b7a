(** Overflow is monotone: smaller representatives of the same operands never
    overflow where larger ones do not; [safe] against [fast], and reduced
    against unreduced inputs. *)

From Coq Require Import ZArith QArith Bool Lia Znumtheory Zquot Setoid Morphisms.
From Verif Require Import Machine Raw Ops Spec Machine_proofs Value_proofs Ops_proofs Total_proofs Cmp_proofs Order_proofs Algebra_proofs.
Open Scope Z_scope.

Definition args_scaled (a b : args) : Prop :=
  match a, b with
  | RR l r, RR l' r' => scaled l l' /\ scaled r r'
  | RI l z, RI l' z' => scaled l l' /\ z = z'
  | IR z r, IR z' r' => z = z' /\ scaled r r'
  | _, _ => False
  end.

Lemma scaled_refl : forall x, scaled x x.
Proof. intros x. exists 1. lia. Qed.
Lemma scaled_trans : forall x y z, scaled x y -> scaled y z -> scaled x z.
Proof.
  intros x y z [g [G [G1 G2]]] [h [H [H1 H2]]]. exists (h * g).
  rewrite H1, H2, G1, G2. split; [nia|]. split; ring.
Qed.
Lemma scaled_den : forall x y, scaled x y -> (den x = 0 <-> den y = 0).
Proof. intros x y [g [G [G1 G2]]]. rewrite G2. nia. Qed.

Lemma in_rep_unscale : forall t c x, wf_rep t -> 0 < c -> in_rep t (c * x) = true -> in_rep t x = true.
Proof.
  intros t c x W C H. apply in_rep_iff in H. apply in_rep_iff.
  pose proof (rmin_nonpos t W). pose proof (rmax_big t W). nia.
Qed.

Lemma in_rep_unscale_eq : forall t c x y, wf_rep t -> 0 < c -> in_rep t y = true -> y = c * x ->
  in_rep t x = true.
Proof. intros; subst. eapply in_rep_unscale; eauto. Qed.

Lemma scaled_wf : forall t x y, wf_rep t -> scaled x y -> wf_raw t y -> wf_raw t x.
Proof.
  intros t x y W [g [G [G1 G2]]] [H1 H2].
  split; [exact (in_rep_unscale_eq t g _ _ W G H1 G1)|exact (in_rep_unscale_eq t g _ _ W G H2 G2)].
Qed.

Lemma args_scaled_wf : forall t a b, wf_rep t -> args_scaled a b -> wf_args t b -> wf_args t a.
Proof.
  intros t a b W H K. destruct a, b; cbn in *; try tauto; destruct H, K; subst; split; auto;
    eapply scaled_wf; eauto.
Qed.

Lemma args_scaled_defined : forall a b, args_scaled a b -> (defined_args a <-> defined_args b).
Proof.
  intros a b H. rewrite !defined_args_raw.
  destruct a, b; cbn in *; try tauto; destruct H; subst;
  repeat match goal with H : scaled _ _ |- _ => apply scaled_den in H end; tauto.
Qed.

Lemma args_scaled_refl : forall a, args_scaled a a.
Proof. intros []; cbn; auto using scaled_refl. Qed.

(** Scaling does not change what reduce returns. *)
Lemma abs_unscale : forall t g x, wf_rep t -> 0 < g -> in_rep t (Z.abs (g * x)) = true ->
  in_rep t (Z.abs x) = true.
Proof.
  intros t g x W G H. rewrite Z.abs_mul, (Z.abs_eq g) in H by lia. exact (in_rep_unscale t g _ W G H).
Qed.

Lemma reduce_ignore_scaled : forall t x y r, wf_rep t -> scaled x y ->
  reduce_ignore_signs t y = Ok r -> reduce_ignore_signs t x = Ok r.
Proof.
  intros t x y r W [g [G [G1 G2]]] H. unfold reduce_ignore_signs in *.
  assert (U : is_undefined x = is_undefined y).
  { apply Bool.eq_iff_eq_true. rewrite !is_undefined_iff. apply scaled_den. exists g; auto. }
  rewrite U. destruct (is_undefined y) eqn:D; [exact H|].
  assert (D' : den x <> 0).
  { intros Z. apply is_undefined_iff in Z. congruence. }
  inv_bind H. apply std_gcd_ok in E as [-> [A1 A2]]. rewrite G1, G2 in *.
  unfold std_gcd. rewrite (abs_unscale t g _ W G A1), (abs_unscale t g _ W G A2). cbn [bind andb].
  rewrite Z.gcd_mul_mono_l_nonneg in * by lia.
  destruct (gcd_parts (num x) (den x) D') as [P _].
  unfold m_div in *.
  destruct (Z.eqb_spec (g * Z.gcd (num x) (den x)) 0); [nia|].
  destruct (Z.eqb_spec (Z.gcd (num x) (den x)) 0); [lia|].
  rewrite Z.quot_mul_cancel_l in E0, E1 by lia.
  rewrite E0, E1. exact H.
Qed.

Lemma reduce_scaled : forall t m x y r, wf_rep t -> scaled x y ->
  reduce t y m = Ok r -> reduce t x m = Ok r.
Proof.
  intros t m x y r W S H. destruct m; cbn in *.
  - unfold reduce_normalize_signs in *. inv_bind H.
    now rewrite (reduce_ignore_scaled t x y _ W S E).
  - eapply reduce_ignore_scaled; eauto.
Qed.

Lemma reduce_args_scaled : forall t m a b c, wf_rep t -> args_scaled a b ->
  reduce_args t b m = Ok c -> reduce_args t a m = Ok c.
Proof.
  intros t m a b c W S H. destruct a, b; cbn in *; try tauto; destruct S as [S1 S2]; subst; inv_bind H;
  repeat match goal with
  | S : scaled ?x ?y, E : reduce t ?y m = Ok _ |- _ =>
      apply (reduce_scaled t m x y _ W S) in E; rewrite E; cbn [bind]
  end; exact H.
Qed.

(** ** Monotonicity of the base policies *)

Ltac ok_facts S :=
  inv_all; signed_facts S;
  repeat match goal with E : std_lcm _ _ _ = Ok _ |- _ =>
    let F1 := fresh "L" in let F2 := fresh "L" in
    apply std_lcm_ok in E as [-> [F1 [F2 E]]] end.

Lemma m_mul_ok : forall t x y, wf_rep t -> in_rep t (x * y) = true -> m_mul t x y = Ok (x * y).
Proof. intros. unfold m_mul. now apply arith_in. Qed.
Lemma m_add_ok : forall t x y, wf_rep t -> in_rep t (x + y) = true -> m_add t x y = Ok (x + y).
Proof. intros. unfold m_add. now apply arith_in. Qed.
Lemma m_sub_ok : forall t x y, wf_rep t -> in_rep t (x - y) = true -> m_sub t x y = Ok (x - y).
Proof. intros. unfold m_sub. now apply arith_in. Qed.
Lemma m_rem_ok : forall t x y, wf_rep t -> y <> 0 -> in_rep t (Z.quot x y) = true ->
  m_rem t x y = Ok (Z.rem x y).
Proof. intros. now apply m_rem_in. Qed.

Ltac unscale c :=
  match goal with
  | W : wf_rep ?t |- in_rep ?t ?x = true =>
      match goal with
      | H : in_rep t ?y = true |- _ =>
          apply (in_rep_unscale_eq t c x y W); [lia || nia|exact H|ring]
      end
  end.

Lemma quot_unscale : forall c x y x' y', c <> 0 -> y <> 0 -> x' = c * x -> y' = c * y ->
  Z.quot x' y' = Z.quot x y.
Proof. intros; subst. now apply Z.quot_mul_cancel_l. Qed.
Lemma rem_unscale : forall c x y x' y', c <> 0 -> y <> 0 -> x' = c * x -> y' = c * y ->
  Z.rem x' y' = c * Z.rem x y.
Proof. intros; subst. now rewrite Z.mul_rem_distr_l. Qed.

Definition base_mono (p : policy) : Prop :=
  forall t op a b r, wf_rep t -> rsigned t = true -> wf_args t b -> defined_args b ->
  args_scaled a b -> p_arith p t op b = Ok r ->
  exists r', p_arith p t op a = Ok r' /\ scaled r' r.

Lemma fast_mono : base_mono fast.
Proof.
  intros t op a b r W S A D SC H. apply defined_args_raw in D as [Dl Dr].
  destruct b as [l r0|l z|z l], a as [l' r'|l' z'|z' l']; cbn [args_scaled] in SC; try tauto;
    destruct SC as [SC1 SC2]; subst; cbn [lraw rraw den num] in Dl, Dr.
  - destruct SC1 as [g [G [Gn Gd]]], SC2 as [h [H' [Hn Hd]]].
    destruct l as [ln ld], r0 as [rn rd], l' as [ln' ld'], r' as [rn' rd']; cbn [num den] in *; subst.
    assert (GH : 0 < g * h) by nia.
    destruct op; unfold_policy H; cbn [num den] in H; ok_facts S; subst; cbn [num den];
      cbn; unfold fast_plus_rr, fast_minus_rr, fast_multiplies_rr, fast_divides_rr, fast_modulus_rr;
      cbn [num den].
    + rewrite !m_mul_ok by (auto; unscale (g * h)). cbn [bind].
      rewrite m_add_ok by (auto; unscale (g * h)). cbn [bind].
      eexists; split; [reflexivity|]. exists (g * h). cbn [num den]. split; [auto|]. split; ring.
    + rewrite !m_mul_ok by (auto; unscale (g * h)). cbn [bind].
      rewrite m_sub_ok by (auto; unscale (g * h)). cbn [bind].
      eexists; split; [reflexivity|]. exists (g * h). cbn [num den]. split; [auto|]. split; ring.
    + rewrite !m_mul_ok by (auto; unscale (g * h)). cbn [bind].
      eexists; split; [reflexivity|]. exists (g * h). cbn [num den]. split; [auto|]. split; ring.
    + rewrite !m_mul_ok by (auto; unscale (g * h)). cbn [bind].
      eexists; split; [reflexivity|]. exists (g * h). cbn [num den]. split; [auto|]. split; ring.
    + rewrite !m_mul_ok by (auto; unscale (g * h)). cbn [bind].
      assert (rn' * ld' <> 0) by nia.
      assert (Q : forall f : Z -> Z -> Z, f (g * ln' * (h * rd')) (h * rn' * (g * ld')) =
        f (g * h * (ln' * rd')) (g * h * (rn' * ld'))) by (intros; f_equal; ring).
      rewrite Q in *. rewrite Z.quot_mul_cancel_l in * by lia.
      rewrite m_rem_ok by auto. cbn [bind].
      eexists; split; [reflexivity|]. exists (g * h). cbn [num den]. split; [auto|].
      split; [now rewrite Z.mul_rem_distr_l by lia|ring].
  - destruct SC1 as [g [G [Gn Gd]]].
    destruct l as [ln ld], l' as [ln' ld']; cbn [num den] in *; subst.
    destruct A as [[A1 A2] A3]; cbn [num den] in *.
    destruct op; unfold_policy H; cbn [num den] in H; ok_facts S; subst; cbn [num den];
      cbn; unfold fast_plus_ri, fast_minus_ri, fast_multiplies_ri, fast_divides_ri, fast_modulus_ri;
      cbn [num den].
    + rewrite !m_mul_ok by (auto; unscale g). cbn [bind].
      rewrite m_add_ok by (auto; unscale g). cbn [bind].
      eexists; split; [reflexivity|]. exists g. cbn [num den]. split; [auto|]. split; ring.
    + rewrite !m_mul_ok by (auto; unscale g). cbn [bind].
      rewrite m_sub_ok by (auto; unscale g). cbn [bind].
      eexists; split; [reflexivity|]. exists g. cbn [num den]. split; [auto|]. split; ring.
    + rewrite !m_mul_ok by (auto; unscale g). cbn [bind].
      eexists; split; [reflexivity|]. exists g. cbn [num den]. split; [auto|]. split; ring.
    + rewrite !m_mul_ok by (auto; unscale g). cbn [bind].
      eexists; split; [reflexivity|]. exists g. cbn [num den]. split; [auto|]. split; ring.
    + rewrite !m_mul_ok by (auto; unscale g). cbn [bind].
      assert (z * ld' <> 0) by nia.
      assert (Q : forall f : Z -> Z -> Z, f (g * ln') (z * (g * ld')) =
        f (g * ln') (g * (z * ld'))) by (intros; f_equal; ring).
      rewrite Q in *. rewrite Z.quot_mul_cancel_l in * by lia.
      rewrite m_rem_ok by auto. cbn [bind].
      eexists; split; [reflexivity|]. exists g. cbn [num den]. split; [auto|].
      split; [now rewrite Z.mul_rem_distr_l by lia|ring].
  - destruct SC2 as [g [G [Gn Gd]]].
    destruct l as [ln ld], l' as [ln' ld']; cbn [num den] in *; subst.
    destruct A as [A3 [A1 A2]]; cbn [num den] in *.
    destruct op; unfold_policy H; cbn [num den] in H; ok_facts S; subst; cbn [num den];
      cbn; unfold fast_plus_ir, fast_minus_ir, fast_multiplies_ir, fast_divides_ir, fast_modulus_ir,
        fast_plus_ri, fast_multiplies_ri;
      cbn [num den].
    + rewrite !m_mul_ok by (auto; unscale g). cbn [bind].
      rewrite m_add_ok by (auto; unscale g). cbn [bind].
      eexists; split; [reflexivity|]. exists g. cbn [num den]. split; [auto|]. split; ring.
    + rewrite !m_mul_ok by (auto; unscale g). cbn [bind].
      rewrite m_sub_ok by (auto; unscale g). cbn [bind].
      eexists; split; [reflexivity|]. exists g. cbn [num den]. split; [auto|]. split; ring.
    + rewrite !m_mul_ok by (auto; unscale g). cbn [bind].
      eexists; split; [reflexivity|]. exists g. cbn [num den]. split; [auto|]. split; ring.
    + rewrite !m_mul_ok by (auto; unscale g). cbn [bind].
      eexists; split; [reflexivity|]. exists g. cbn [num den]. split; [auto|]. split; ring.
    + rewrite !m_mul_ok by (auto; unscale g). cbn [bind].
      assert (ln' <> 0) by nia.
      assert (Q : forall f : Z -> Z -> Z, f (z * (g * ld')) (g * ln') =
        f (g * (z * ld')) (g * ln')) by (intros; f_equal; ring).
      rewrite Q in *. rewrite Z.quot_mul_cancel_l in * by lia.
      rewrite m_rem_ok by auto. cbn [bind].
      eexists; split; [reflexivity|]. exists g. cbn [num den]. split; [auto|].
      split; [now rewrite Z.mul_rem_distr_l by lia|ring].
Qed.

Lemma safe_parts_mono : forall t l r l' r' m k1 a k2 b, wf_rep t -> rsigned t = true ->
  den l <> 0 -> den r <> 0 -> scaled l' l -> scaled r' r ->
  std_lcm t (den l) (den r) = Ok m ->
  m_div t m (den l) = Ok k1 -> m_mul t k1 (num l) = Ok a ->
  m_div t m (den r) = Ok k2 -> m_mul t k2 (num r) = Ok b ->
  exists c m' k1' a' k2' b', 0 < c /\
  std_lcm t (den l') (den r') = Ok m' /\
  m_div t m' (den l') = Ok k1' /\ m_mul t k1' (num l') = Ok a' /\
  m_div t m' (den r') = Ok k2' /\ m_mul t k2' (num r') = Ok b' /\
  m = c * m' /\ a = c * a' /\ b = c * b' /\ in_rep t a = true /\ in_rep t b = true.
Proof.
  intros t l r l' r' m k1 a k2 b W S Dl Dr [g [G [Gn Gd]]] [h [H [Hn Hd]]] E1 E2 E3 E4 E5.
  assert (Dl' : den l' <> 0) by nia. assert (Dr' : den r' <> 0) by nia.
  signed_facts S. apply std_lcm_ok in E1 as [-> [L1 [L2 E1]]].
  destruct (lcm_parts _ _ Dl Dr) as [k1_ [k2_ [K1 [K2 [Q1 [Q2 [P [N1 [N2 [B1 [B2 B3]]]]]]]]]]].
  destruct (lcm_parts _ _ Dl' Dr') as [k1' [k2' [K1' [K2' [Q1' [Q2' [P' [N1' [N2' [B1' [B2' B3']]]]]]]]]]].
  rewrite Q1, Q2 in *. subst k1 k2. clear Q1 Q2.
  assert (X : (Z.lcm (den l') (den r') | Z.lcm (den l) (den r))).
  { apply Z.lcm_least.
    - apply Z.divide_trans with (den l); [exists g; lia|apply Z.divide_lcm_l].
    - apply Z.divide_trans with (den r); [exists h; lia|apply Z.divide_lcm_r]. }
  destruct X as [c X].
  assert (C : 0 < c) by (clear - X P P'; nia).
  assert (Y1 : k1_ * g = c * k1').
  { apply (Z.mul_reg_r _ _ (den l') Dl').
    transitivity (g * den l' * k1_); [ring|]. rewrite <- Gd, <- K1, X, K1'. ring. }
  assert (Y2 : k2_ * h = c * k2').
  { apply (Z.mul_reg_r _ _ (den r') Dr').
    transitivity (h * den r' * k2_); [ring|]. rewrite <- Hd, <- K2, X, K2'. ring. }
  assert (Z1 : a = c * (k1' * num l')).
  { subst a. rewrite Gn. transitivity (k1_ * g * num l'); [ring|]. rewrite Y1. ring. }
  assert (Z2 : b = c * (k2' * num r')).
  { subst b. rewrite Hn. transitivity (k2_ * h * num r'); [ring|]. rewrite Y2. ring. }
  subst a b. rewrite Gd in L1. rewrite Hd in L2.
  apply (abs_unscale t g _ W G) in L1. apply (abs_unscale t h _ W H) in L2.
  exists c, (Z.lcm (den l') (den r')), k1', (k1' * num l'), k2', (k2' * num r').
  split; [exact C|]. split.
  { unfold std_lcm. rewrite L1, L2. cbn [andb].
    rewrite (in_rep_unscale_eq t c _ _ W C E1); [reflexivity|]. rewrite X. ring. }
  apply in_rep_iff in L1, L2.
  split. { rewrite m_div_in, Q1'; auto. rewrite Q1'. apply in_rep_abs; auto; [lia|congruence]. }
  split. { apply m_mul_ok; auto. apply (in_rep_unscale_eq t c _ _ W C E3). now rewrite Z1. }
  split. { rewrite m_div_in, Q2'; auto. rewrite Q2'. apply in_rep_abs; auto; [lia|congruence]. }
  split. { apply m_mul_ok; auto. apply (in_rep_unscale_eq t c _ _ W C E5). now rewrite Z2. }
  rewrite <- Z1, <- Z2. repeat split; auto.
Qed.

Lemma safe_mono : base_mono safe.
Proof.
  intros t op a b r W S A D SC H. apply defined_args_raw in D as [Dl Dr].
  destruct b as [l r0|l z|z l], a as [l' r'|l' z'|z' l']; cbn [args_scaled] in SC; try tauto;
    destruct SC as [SC1 SC2]; subst; cbn [lraw rraw den num] in Dl, Dr.
  - destruct op; unfold_policy H.
    1,2,5: inv_bind H; inversion H; subst;
      destruct (safe_parts_mono t l r0 l' r' a a0 a1 a2 a3)
        as [c [m' [k1' [a' [k2' [b' [C [F1 [F2 [F3 [F4 [F5 [F6 [F7 [F8 [F9 F10]]]]]]]]]]]]]]]]; auto;
      cbn [p_arith safe p_plus_rr p_minus_rr p_modulus_rr];
      unfold safe_plus_rr, safe_minus_rr, safe_modulus_rr;
      rewrite F1; cbn [bind]; rewrite F2; cbn [bind]; rewrite F3; cbn [bind];
      rewrite F4; cbn [bind]; rewrite F5; cbn [bind]; clear F1 F2 F3 F4 F5 E0 E1 E2 E3; subst;
      signed_facts S; subst.
    + rewrite m_add_ok by (auto; unscale c). cbn [bind].
      eexists; split; [reflexivity|]. exists c. cbn [num den]. split; [auto|]. split; ring.
    + rewrite m_sub_ok by (auto; unscale c). cbn [bind].
      eexists; split; [reflexivity|]. exists c. cbn [num den]. split; [auto|]. split; ring.
    + assert (b' <> 0) by nia. rewrite Z.quot_mul_cancel_l in * by lia.
      rewrite m_rem_ok by auto. cbn [bind].
      eexists; split; [reflexivity|]. exists c. cbn [num den]. split; [auto|].
      split; [now rewrite Z.mul_rem_distr_l by lia|ring].
    + destruct SC1 as [g [G [Gn Gd]]], SC2 as [h [H' [Hn Hd]]].
      destruct l as [ln ld], r0 as [rn rd], l' as [ln' ld'], r' as [rn' rd']; cbn [num den] in *; subst.
      assert (GH : 0 < g * h) by nia. ok_facts S; subst.
      cbn; unfold safe_multiplies_rr; cbn [num den].
      rewrite !m_mul_ok by (auto; unscale (g * h)). cbn [bind].
      eexists; split; [reflexivity|]. exists (g * h). cbn [num den]. split; [auto|]. split; ring.
    + destruct SC1 as [g [G [Gn Gd]]], SC2 as [h [H' [Hn Hd]]].
      destruct l as [ln ld], r0 as [rn rd], l' as [ln' ld'], r' as [rn' rd']; cbn [num den] in *; subst.
      assert (GH : 0 < g * h) by nia. ok_facts S; subst.
      cbn; unfold safe_divides_rr; cbn [num den].
      rewrite !m_mul_ok by (auto; unscale (g * h)). cbn [bind].
      eexists; split; [reflexivity|]. exists (g * h). cbn [num den]. split; [auto|]. split; ring.
  - destruct SC1 as [g [G [Gn Gd]]].
    destruct l as [ln ld], l' as [ln' ld']; cbn [num den] in *; subst.
    destruct A as [[A1 A2] A3]; cbn [num den] in *.
    destruct op; unfold_policy H; cbn [num den] in H; ok_facts S; subst; cbn [num den];
      cbn; unfold safe_plus_ri, safe_minus_ri, safe_multiplies_ri, safe_divides_ri, safe_modulus_ri;
      cbn [num den].
    + rewrite !m_mul_ok by (auto; unscale g). cbn [bind].
      rewrite m_add_ok by (auto; unscale g). cbn [bind].
      eexists; split; [reflexivity|]. exists g. cbn [num den]. split; [auto|]. split; ring.
    + rewrite !m_mul_ok by (auto; unscale g). cbn [bind].
      rewrite m_sub_ok by (auto; unscale g). cbn [bind].
      eexists; split; [reflexivity|]. exists g. cbn [num den]. split; [auto|]. split; ring.
    + rewrite !m_mul_ok by (auto; unscale g). cbn [bind].
      eexists; split; [reflexivity|]. exists g. cbn [num den]. split; [auto|]. split; ring.
    + rewrite !m_mul_ok by (auto; unscale g). cbn [bind].
      eexists; split; [reflexivity|]. exists g. cbn [num den]. split; [auto|]. split; ring.
    + rewrite !m_mul_ok by (auto; unscale g). cbn [bind].
      assert (ld' * z <> 0) by nia.
      assert (Q : forall f : Z -> Z -> Z, f (g * ln') (g * ld' * z) =
        f (g * ln') (g * (ld' * z))) by (intros; f_equal; ring).
      rewrite Q in *. rewrite Z.quot_mul_cancel_l in * by lia.
      rewrite m_rem_ok by auto. cbn [bind].
      eexists; split; [reflexivity|]. exists g. cbn [num den]. split; [auto|].
      split; [now rewrite Z.mul_rem_distr_l by lia|ring].
  - destruct SC2 as [g [G [Gn Gd]]].
    destruct l as [ln ld], l' as [ln' ld']; cbn [num den] in *; subst.
    destruct A as [A3 [A1 A2]]; cbn [num den] in *.
    destruct op; unfold_policy H; cbn [num den] in H; ok_facts S; subst; cbn [num den];
      cbn; unfold safe_plus_ir, safe_minus_ir, safe_multiplies_ir, safe_divides_ir, safe_modulus_ir,
        safe_plus_ri, safe_multiplies_ri;
      cbn [num den].
    + rewrite !m_mul_ok by (auto; unscale g). cbn [bind].
      rewrite m_add_ok by (auto; unscale g). cbn [bind].
      eexists; split; [reflexivity|]. exists g. cbn [num den]. split; [auto|]. split; ring.
    + rewrite !m_mul_ok by (auto; unscale g). cbn [bind].
      rewrite m_sub_ok by (auto; unscale g). cbn [bind].
      eexists; split; [reflexivity|]. exists g. cbn [num den]. split; [auto|]. split; ring.
    + rewrite !m_mul_ok by (auto; unscale g). cbn [bind].
      eexists; split; [reflexivity|]. exists g. cbn [num den]. split; [auto|]. split; ring.
    + rewrite !m_mul_ok by (auto; unscale g). cbn [bind].
      eexists; split; [reflexivity|]. exists g. cbn [num den]. split; [auto|]. split; ring.
    + rewrite !m_mul_ok by (auto; unscale g). cbn [bind].
      assert (ln' <> 0) by nia.
      assert (Q : forall f : Z -> Z -> Z, f (g * ld' * z) (g * ln') =
        f (g * (ld' * z)) (g * ln')) by (intros; f_equal; ring).
      rewrite Q in *. rewrite Z.quot_mul_cancel_l in * by lia.
      rewrite m_rem_ok by auto. cbn [bind].
      eexists; split; [reflexivity|]. exists g. cbn [num den]. split; [auto|].
      split; [now rewrite Z.mul_rem_distr_l by lia|ring].
Qed.

(** Any policy: what succeeds on operands succeeds on smaller representatives
    of the same operands, with a smaller representative of the same result. *)
Lemma denote_mono : forall o, base_mono (denote o).
Proof.
  induction o as [| |o IH m|o IH m]; cbn [denote].
  - apply safe_mono.
  - apply fast_mono.
  - intros t op a b r W S A D SC H. rewrite ri_arith_eq in *. inv_bind H.
    rewrite (reduce_args_scaled t m a b _ W SC E). cbn [bind].
    exists r. split; auto using scaled_refl.
  - intros t op a b r W S A D SC H. rewrite ro_arith_eq in *. inv_bind H.
    destruct (IH t op a b _ W S A D SC E) as [r' [E' SC']]. rewrite E'. cbn [bind].
    exists r. split; auto using scaled_refl. eapply reduce_scaled; eauto.
Qed.

(** reduce returns a smaller representative, unless it flips the sign of the
    denominator. *)
Lemma reduces_scaled : forall m v r, reduces_to m v r -> den v <> 0 ->
  (m = ignore_signs_mode \/ 0 < den v) -> scaled r v.
Proof.
  intros m v r [[D ->]|[D [g [G [Hn [Hd [Hg [P1 P2]]]]]]]] D' C; [contradiction|].
  exists g. split; [|auto]. destruct m.
  - destruct C as [C|C]; [discriminate|]. specialize (P1 eq_refl). nia.
  - specialize (P2 eq_refl). lia.
Qed.

Lemma args_reduce_scaled : forall m a b, args_reduce m a b -> defined_args a ->
  m = ignore_signs_mode \/ positive_dens a -> args_scaled b a.
Proof.
  intros m a b H D C. apply defined_args_raw in D as [Dl Dr].
  destruct a, b; cbn in *; try tauto; destruct H as [H1 H2]; subst; split; auto;
    eapply reduces_scaled; eauto; intuition.
Qed.

(** Reducing inputs never introduces an overflow. *)
Theorem reduced_input_mono : forall o m t op a r, wf_rep t -> rsigned t = true ->
  wf_args t a -> defined_args a -> args_bounded (rmax t) a ->
  m = ignore_signs_mode \/ positive_dens a ->
  p_arith (denote o) t op a = Ok r ->
  exists r', p_arith (denote (ReducedInput o m)) t op a = Ok r' /\ scaled r' r.
Proof.
  intros o m t op a r W S A D B C H. cbn [denote]. rewrite ri_arith_eq.
  destruct (reduce_args_total t a m (rmax t)) as [b [E1 E2]]; auto; [lia|].
  rewrite E1. cbn [bind]. apply reduce_args_spec in E1 as [W' R]; auto.
  apply (denote_mono o t op b a r); auto. eapply args_reduce_scaled; eauto.
Qed.

(** ** Comparisons *)

Definition cmp_mono (p : policy) : Prop :=
  forall t op a b v, wf_rep t -> rsigned t = true -> wf_args t b -> defined_args b ->
  args_scaled a b -> p_cmp p t op b = Ok v -> p_cmp p t op a = Ok v.

Lemma zcmp_unscale : forall op c x y, 0 < c -> zcmp op (c * x) (c * y) = zcmp op x y.
Proof. intros. rewrite !(Z.mul_comm c). now apply zcmp_scale. Qed.

Lemma int_sides_mono : forall t l z l' x, wf_rep t -> rsigned t = true -> scaled l' l ->
  m_mul t z (den l) = Ok x ->
  exists c, 0 < c /\ m_mul t z (den l') = Ok (z * den l') /\ x = c * (z * den l') /\ num l = c * num l'.
Proof.
  intros t l z l' x W S [g [G [Gn Gd]]] H. signed_facts S. subst x. rewrite Gd in *.
  exists g. split; [auto|]. split; [apply m_mul_ok; auto; unscale g|]. split; [ring|auto].
Qed.

Lemma safe_cmp_mono : cmp_mono safe.
Proof.
  intros t op a b v W S A D SC H.
  pose proof (proj2 (args_scaled_defined _ _ SC) D) as Da.
  apply safe_cmp_sides in H as [x [y [E ->]]]; auto.
  pose proof D as D'. apply defined_args_raw in D' as [Dl Dr].
  destruct b as [l r0|l z|z l], a as [l' r'|l' z'|z' l']; cbn [args_scaled] in SC; try tauto;
    destruct SC as [SC1 SC2]; subst; cbn [lraw rraw den num safe_sides] in *.
  - inv_bind E; inversion E; subst;
      destruct (safe_parts_mono t l r0 l' r' a a0 x a2 y)
        as [c [m' [k1' [a' [k2' [b' [C [F1 [F2 [F3 [F4 [F5 [F6 [F7 [F8 _]]]]]]]]]]]]]]]; auto.
    subst. rewrite zcmp_unscale by auto. apply safe_cmp_exec; auto.
    cbn [safe_sides]. rewrite F1; cbn [bind]; rewrite F2; cbn [bind]; rewrite F3; cbn [bind];
      rewrite F4; cbn [bind]; rewrite F5; reflexivity.
  - inv_bind E; inversion E; subst.
    destruct (int_sides_mono t l z l' y W S SC1 E0) as [c [C [F1 [F2 F3]]]].
    rewrite F3, F2, zcmp_unscale by auto. apply safe_cmp_exec; auto. cbn [safe_sides]. now rewrite F1.
  - inv_bind E; inversion E; subst.
    destruct (int_sides_mono t l z l' x W S SC2 E0) as [c [C [F1 [F2 F3]]]].
    rewrite F3, F2, zcmp_unscale by auto. apply safe_cmp_exec; auto. cbn [safe_sides]. now rewrite F1.
Qed.

Lemma fast_cmp_mono : cmp_mono fast.
Proof.
  intros t op a b v W S A D SC H.
  pose proof (proj2 (args_scaled_defined _ _ SC) D) as Da.
  apply fast_cmp_sides in H as [x [y [E ->]]]; auto.
  destruct b as [l r0|l z|z l], a as [l' r'|l' z'|z' l']; cbn [args_scaled] in SC; try tauto;
    destruct SC as [SC1 SC2]; subst; cbn [lraw rraw den num fast_sides] in *.
  - inv_bind E; inversion E; subst. signed_facts S.
    destruct SC1 as [g [G [Gn Gd]]], SC2 as [h [H' [Hn Hd]]].
    assert (GH : 0 < g * h) by (clear - G H'; nia).
    rewrite Gn, Gd, Hn, Hd in *. subst x y.
    replace (g * num l' * (h * den r')) with (g * h * (num l' * den r')) in * by ring.
    replace (h * num r' * (g * den l')) with (g * h * (num r' * den l')) in * by ring.
    rewrite zcmp_unscale by auto. apply fast_cmp_exec; auto. cbn [fast_sides].
    rewrite !m_mul_ok; auto; eapply in_rep_unscale; eauto.
  - inv_bind E; inversion E; subst.
    destruct (int_sides_mono t l z l' y W S SC1 E0) as [c [C [F1 [F2 F3]]]].
    rewrite F3, F2, zcmp_unscale by auto. apply fast_cmp_exec; auto. cbn [fast_sides]. now rewrite F1.
  - inv_bind E; inversion E; subst.
    destruct (int_sides_mono t l z l' x W S SC2 E0) as [c [C [F1 [F2 F3]]]].
    rewrite F3, F2, zcmp_unscale by auto. apply fast_cmp_exec; auto. cbn [fast_sides]. now rewrite F1.
Qed.

Lemma denote_cmp_mono : forall o, cmp_mono (denote o).
Proof.
  induction o as [| |o IH m|o IH m]; cbn [denote].
  - apply safe_cmp_mono.
  - apply fast_cmp_mono.
  - intros t op a b r W S A D SC H. rewrite ri_cmp_eq in *. inv_bind H.
    now rewrite (reduce_args_scaled t m a b _ W SC E).
  - intros t op a b r W S A D SC H. rewrite ro_cmp_eq in *. eapply IH; eauto.
Qed.

Theorem reduced_input_cmp_mono : forall o m t op a v, wf_rep t -> rsigned t = true ->
  wf_args t a -> defined_args a -> args_bounded (rmax t) a ->
  m = ignore_signs_mode \/ positive_dens a ->
  p_cmp (denote o) t op a = Ok v ->
  p_cmp (denote (ReducedInput o m)) t op a = Ok v.
Proof.
  intros o m t op a r W S A D B C H. cbn [denote]. rewrite ri_cmp_eq.
  destruct (reduce_args_total t a m (rmax t)) as [b [E1 E2]]; auto; [lia|].
  rewrite E1. cbn [bind]. apply reduce_args_spec in E1 as [W' R]; auto.
  apply (denote_cmp_mono o t op b a r); auto. eapply args_reduce_scaled; eauto.
Qed.

(** ** safe against fast *)

Lemma safe_parts_fast : forall t l r x y, wf_rep t -> rsigned t = true -> wf_raw t l -> wf_raw t r ->
  0 < den l -> 0 < den r ->
  m_mul t (num l) (den r) = Ok x -> m_mul t (num r) (den l) = Ok y ->
  in_rep t (den l * den r) = true ->
  exists c m k1 a k2 b, 0 < c /\
  std_lcm t (den l) (den r) = Ok m /\
  m_div t m (den l) = Ok k1 /\ m_mul t k1 (num l) = Ok a /\
  m_div t m (den r) = Ok k2 /\ m_mul t k2 (num r) = Ok b /\
  den l * den r = c * m /\ x = c * a /\ y = c * b.
Proof.
  intros t l r x y W S [Wl1 Wl2] [Wr1 Wr2] Pl Pr E1 E2 E3. signed_facts S.
  assert (Dl : den l <> 0) by lia. assert (Dr : den r <> 0) by lia.
  destruct (lcm_parts _ _ Dl Dr) as [k1 [k2 [K1 [K2 [Q1 [Q2 [P [N1 [N2 [B1 [B2 B3]]]]]]]]]]].
  assert (X : (Z.lcm (den l) (den r) | den l * den r)).
  { apply Z.lcm_least; [apply Z.divide_factor_l|apply Z.divide_factor_r]. }
  destruct X as [c X].
  assert (C : 0 < c) by (clear - X P Pl Pr; nia).
  assert (Y1 : den r = c * k1).
  { apply (Z.mul_reg_l _ _ (den l) Dl). rewrite X, K1. ring. }
  assert (Y2 : den l = c * k2).
  { apply (Z.mul_reg_r _ _ (den r) Dr). rewrite X, K2. ring. }
  exists c, (Z.lcm (den l) (den r)), k1, (k1 * num l), k2, (k2 * num r).
  split; [exact C|]. split.
  { unfold std_lcm. rewrite !Z.abs_eq, Wl2, Wr2 by lia. cbn [andb].
    rewrite (in_rep_unscale_eq t c _ _ W C E3); [reflexivity|]. rewrite X. ring. }
  split. { rewrite m_div_in, Q1; auto. rewrite Q1. exact (in_rep_unscale_eq t c _ _ W C Wr2 Y1). }
  split. { apply m_mul_ok; auto. apply (in_rep_unscale_eq t c _ _ W C E1). rewrite Y1. ring. }
  split. { rewrite m_div_in, Q2; auto. rewrite Q2. exact (in_rep_unscale_eq t c _ _ W C Wl2 Y2). }
  split. { apply m_mul_ok; auto. apply (in_rep_unscale_eq t c _ _ W C E2). rewrite Y2. ring. }
  subst x y. split; [rewrite X; ring|]. split; [rewrite Y1; ring|rewrite Y2; ring].
Qed.

Lemma safe_fast_ri : forall t op l z, p_arith safe t op (RI l z) = p_arith fast t op (RI l z).
Proof.
  intros t op l z. destruct op; try reflexivity; cbn.
  unfold safe_modulus_ri, fast_modulus_ri. now rewrite mul_comm.
Qed.
Lemma safe_fast_ir : forall t op l z, p_arith safe t op (IR z l) = p_arith fast t op (IR z l).
Proof.
  intros t op l z. destruct op; try reflexivity; cbn.
  unfold safe_modulus_ir, fast_modulus_ir. now rewrite mul_comm.
Qed.

Lemma safe_dominates_base : forall t op a r, wf_rep t -> rsigned t = true -> wf_args t a ->
  positive_dens a -> p_arith fast t op a = Ok r ->
  exists r', p_arith safe t op a = Ok r' /\ scaled r' r.
Proof.
  intros t op a r W S A P H. destruct a as [l r0|l z|z l].
  - destruct A as [Wl Wr], P as [Pl Pr].
    destruct op; unfold_policy H.
    3,4: exists r; split; [exact H|apply scaled_refl].
    1-3: inv_bind H; inversion H; subst;
      match goal with E : m_mul _ (den _) (den _) = Ok ?d |- _ =>
        let E' := fresh in pose proof E as E'; unfold m_mul in E'; apply arith_signed in E' as [? ?]; auto;
        subst d end;
      destruct (safe_parts_fast t l r0 a a0)
        as [c [m' [k1' [a' [k2' [b' [C [F1 [F2 [F3 [F4 [F5 [F6 [F7 F8]]]]]]]]]]]]]]; auto;
      cbn [p_arith safe p_plus_rr p_minus_rr p_modulus_rr];
      unfold safe_plus_rr, safe_minus_rr, safe_modulus_rr;
      rewrite F1; cbn [bind]; rewrite F2; cbn [bind]; rewrite F3; cbn [bind];
      rewrite F4; cbn [bind]; rewrite F5; cbn [bind]; clear F1 F2 F3 F4 F5 E E0; subst;
      signed_facts S; subst; rewrite F6 in *.
    + rewrite m_add_ok by (auto; unscale c). cbn [bind].
      eexists; split; [reflexivity|]. exists c. cbn [num den]. split; [auto|]. split; ring.
    + rewrite m_sub_ok by (auto; unscale c). cbn [bind].
      eexists; split; [reflexivity|]. exists c. cbn [num den]. split; [auto|]. split; ring.
    + assert (b' <> 0) by (clear - NZ; nia). rewrite Z.quot_mul_cancel_l in * by lia.
      rewrite m_rem_ok by auto. cbn [bind].
      eexists; split; [reflexivity|]. exists c. cbn [num den]. split; [auto|].
      split; [now rewrite Z.mul_rem_distr_l by lia|reflexivity].
  - exists r. rewrite safe_fast_ri. auto using scaled_refl.
  - exists r. rewrite safe_fast_ir. auto using scaled_refl.
Qed.

Theorem safe_dominates : forall o t op a r, wf_rep t -> rsigned t = true -> wf_args t a ->
  positive_dens a -> p_arith (denote o) t op a = Ok r ->
  exists r', p_arith (denote (on_safe o)) t op a = Ok r' /\ scaled r' r.
Proof.
  induction o as [| |o IH m|o IH m]; intros t op a r W S A P H; cbn [denote on_safe] in *.
  - exists r. auto using scaled_refl.
  - now apply safe_dominates_base.
  - rewrite ri_arith_eq in *. inv_bind H. rewrite ?E. cbn [bind].
    apply reduce_args_spec in E as [W' R]; auto.
    apply IH; auto. destruct m.
    + eapply args_reduce_normal; eauto. apply defined_args_raw. destruct a; cbn in *; lia.
    + eapply args_reduce_positive; eauto.
  - rewrite ro_arith_eq in *. inv_bind H.
    destruct (IH t op a _ W S A P E) as [r' [E' SC']]. rewrite E'. cbn [bind].
    exists r. split; auto using scaled_refl. eapply reduce_scaled; eauto.
Qed.
