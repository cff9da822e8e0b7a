(** Proofs of the statements in Props_Pow.v. *)

From Coq Require Import ZArith QArith Qpower Bool Lia Lqa.
From Verif Require Import Machine Raw Ops Fraction Fmath Spec Fmath_spec Mixed_spec Defined_spec.
From Verif Require Import Machine_proofs Value_proofs Ops_proofs Algebra_proofs Fmath2_proofs Float_proofs Defined_proofs Cmp_proofs.
From Verif Require Import Arith_claims Cmp_claims Fmath_claims Defined_claims.
Open Scope Z_scope.

Lemma c120_parts : forall t b e r, wf_rep t -> rsigned t = true -> in_rep t b = true ->
  -2147483647 <= e <= 2147483647 -> f_pow t b e = Ok r ->
  (0 <= e -> num r = b ^ e /\ den r = 1) /\ (e < 0 -> num r = 1 /\ den r = b ^ (- e)).
Proof.
  intros t b e r W S B He H. rewrite f_pow_eq in H by auto. inv_bind H. apply Machine_proofs.arith_signed in E as [-> _]; auto.
  rewrite Z.geb_leb in H. destruct (Z.leb_spec 0 e); inversion H; subst r; cbn [num den].
  - rewrite Z.abs_eq by lia. split; [auto|lia].
  - rewrite Z.abs_neq by lia. split; [lia|auto].
Qed.

Lemma pow_canonical_parts : forall t b e r, wf_rep t -> rsigned t = true -> in_rep t b = true ->
  -2147483647 <= e <= 2147483647 -> f_pow t b e = Ok r ->
  (canonical r <-> 0 <= e \/ 0 < b ^ (- e)).
Proof.
  intros t b e r W S B He H. destruct (c120_parts t b e r W S B He H) as [P N]. unfold canonical.
  destruct (Z_le_gt_dec 0 e) as [L|G].
  - destruct (P L) as [-> ->]. split; [auto|]. intros _. right. split; [lia|apply Z.gcd_1_r].
  - destruct (N ltac:(lia)) as [-> ->]. split.
    + intros [[X _]|[X _]]; [discriminate|auto].
    + intros [X|X]; [lia|]. right. split; [exact X|apply Z.gcd_1_l].
Qed.

Lemma c120_lowest_terms : forall t b e r, wf_rep t -> rsigned t = true -> in_rep t b = true ->
  -2147483647 <= e <= 2147483647 -> f_pow t b e = Ok r ->
  (canonical r <-> 0 <= e \/ 0 < b \/ b < 0 /\ Z.even e = true).
Proof.
  intros t b e r W S B He H. rewrite (pow_canonical_parts t b e r W S B He H).
  destruct (Z_le_gt_dec 0 e) as [L|G]; [tauto|].
  split.
  - intros [X|X]; [lia|]. destruct (Z.lt_trichotomy b 0) as [Y|[Y|Y]].
    + right. right. split; [exact Y|]. destruct (Z.even e) eqn:V; [reflexivity|].
      assert (O : Z.odd (- e) = true) by (rewrite Z.odd_opp, <- Z.negb_even, V; reflexivity).
      pose proof (Z.pow_odd_abs_sgn b (- e) ltac:(apply Z.odd_spec; exact O)). nia.
    + rewrite Y, Z.pow_0_l in X by lia. lia.
    + tauto.
  - intros [X|[X|[X V]]]; [lia| |].
    + right. apply Z.pow_pos_nonneg; lia.
    + right. assert (V' : Z.Even (- e)) by (apply Z.even_spec; rewrite Z.even_opp; exact V).
      rewrite (Z.pow_even_abs b (- e) V'). apply Z.pow_pos_nonneg; lia.
Qed.

Lemma c120_reciprocal : forall t b e, wf_rep t -> rsigned t = true -> in_rep t b = true ->
  -2147483647 <= e <= 2147483647 -> e <> 0 ->
  f_pow t b (- e) = match f_pow t b e with Ok r => Ok (reciprocal r) | UB u => UB u end.
Proof.
  intros t b e W S B He N. rewrite !f_pow_eq by (auto; lia). rewrite Z.abs_opp.
  destruct (arith t (b ^ Z.abs e)) as [p|u]; cbn [bind]; [|reflexivity].
  rewrite !Z.geb_leb. destruct (Z.leb_spec 0 e), (Z.leb_spec 0 (- e)); try lia; reflexivity.
Qed.

Lemma c120_pow2 : forall t e, signed_rep t -> Z.abs e <= rbits t - 2 -> rbits t <= 2 ^ 31 ->
  f_pow2 t e = f_pow t 2 e.
Proof.
  intros t e SR H K. pose proof SR as [W S]. rewrite f_pow2_raw by auto.
  pose proof (rmax_signed t SR) as M.
  pose proof (pow2_pos (Z.abs e) ltac:(lia)). pose proof (pow2_lt (Z.abs e) (rbits t - 1) ltac:(lia)).
  pose proof (Machine_proofs.rmax_big t W).
  rewrite f_pow_eq by (auto; try lia; apply Machine_proofs.in_rep_abs; auto; lia).
  rewrite arith_in by (auto; apply Machine_proofs.in_rep_abs; auto; lia). cbn [bind].
  rewrite Z.geb_leb. destruct (Z.leb_spec 0 e); [rewrite Z.abs_eq by lia|rewrite Z.abs_neq by lia]; reflexivity.
Qed.

Lemma c120_product : forall o t b m n x y z w, wf_rep t -> rsigned t = true -> in_rep t b = true -> b <> 0 ->
  -2147483647 <= m <= 2147483647 -> -2147483647 <= n <= 2147483647 -> -2147483647 <= m + n <= 2147483647 ->
  f_pow t b m = Ok x -> f_pow t b n = Ok y -> wf_raw t x -> wf_raw t y ->
  p_arith (denote o) t Multiplies (RR x y) = Ok z -> f_pow t b (m + n) = Ok w ->
  same_value (value z) (value w).
Proof.
  intros o t b m n x y z w W S B N M1 M2 M3 X Y WX WY Z0 W0.
  destruct (proj1 (c32_pow_exact t b m x W S B M1 X) (or_intror N)) as (vx & Vx & Ex).
  destruct (proj1 (c32_pow_exact t b n y W S B M2 Y) (or_intror N)) as (vy & Vy & Ey).
  destruct (proj1 (c32_pow_exact t b (m + n) w W S B M3 W0) (or_intror N)) as (vw & Vw & Ew).
  destruct (c03_multiplication_exact o t (RR x y) z vx vy W S (conj WX WY) Vx Vy Z0) as (q & Vz & Ez).
  rewrite Vz, Vw. cbn [same_value]. rewrite Ez, Ew, Ex, Ey.
  symmetry. apply Qpower_plus. intros Q0. apply N. unfold Qeq in Q0. cbn in Q0. lia.
Qed.

Lemma pow_in : forall t b e r, wf_rep t -> rsigned t = true -> in_rep t b = true ->
  -2147483647 <= e <= 2147483647 -> f_pow t b e = Ok r -> wf_raw t r.
Proof.
  intros t b e r W S B He H. rewrite f_pow_eq in H by auto. inv_bind H.
  apply Machine_proofs.arith_signed in E as [-> I]; auto. pose proof (Machine_proofs.rmax_big t W).
  assert (O : in_rep t 1 = true) by (apply Machine_proofs.in_rep_abs; auto; lia).
  destruct (e >=? 0); inversion H; subst; split; auto.
Qed.

Lemma c120_in_range : forall t b e r, wf_rep t -> rsigned t = true -> in_rep t b = true ->
  -2147483647 <= e <= 2147483647 -> f_pow t b e = Ok r -> wf_raw t r.
Proof. exact pow_in. Qed.

Lemma c120_product_identical : forall o t b m n x y z w, wf_rep t -> rsigned t = true -> in_rep t b = true -> 0 < b ->
  output_canonical o = true ->
  -2147483647 <= m <= 2147483647 -> -2147483647 <= n <= 2147483647 -> -2147483647 <= m + n <= 2147483647 ->
  f_pow t b m = Ok x -> f_pow t b n = Ok y ->
  p_arith (denote o) t Multiplies (RR x y) = Ok z -> f_pow t b (m + n) = Ok w -> z = w.
Proof.
  intros o t b m n x y z w W S B N C M1 M2 M3 X Y Z0 W0.
  pose proof (pow_in t b m x W S B M1 X) as WX. pose proof (pow_in t b n y W S B M2 Y) as WY.
  apply canonical_unique.
  - apply (denote_canonical o t Multiplies (RR x y) z W (conj WX WY)); auto.
  - apply (c120_lowest_terms t b (m + n) w W S B M3 W0). tauto.
  - eapply (c120_product o t b m n); eauto. lia.
Qed.

Lemma low_of_canonical : forall r q, canonical r -> value r = Some q -> low_num q = num r /\ low_den q = den r.
Proof.
  intros r q C V. assert (D : den r <> 0) by (intros D; unfold value in V; rewrite D in V; discriminate).
  destruct C as [[_ Z0]|[P G]]; [congruence|].
  assert (E : r = mkRaw (low_num q) (low_den q)).
  { apply canonical_unique.
    - right. auto.
    - right. cbn [num den]. split; [unfold low_den; lia|apply low_canonical].
    - rewrite V, (value_defined (mkRaw (low_num q) (low_den q))) by (cbn [den]; unfold low_den; lia).
      cbn [num den same_value]. symmetry. apply low_value. }
  rewrite E. split; reflexivity.
Qed.

Lemma c120_product_defined : forall t b m n x y, signed_rep t -> in_rep t b = true -> 0 < b ->
  -2147483647 <= m <= 2147483647 -> -2147483647 <= n <= 2147483647 -> -2147483647 <= m + n <= 2147483647 ->
  f_pow t b m = Ok x -> f_pow t b n = Ok y ->
  ((exists z, p_arith (denote defaults) t Multiplies (RR x y) = Ok z) <->
   m * n <= 0 \/ exists w, f_pow t b (m + n) = Ok w).
Proof.
  intros t b m n x y SR B N M1 M2 M3 X Y. pose proof SR as [W S].
  pose proof (pow_in t b m x W S B M1 X) as WX. pose proof (pow_in t b n y W S B M2 Y) as WY.
  destruct (proj1 (c32_pow_exact t b m x W S B M1 X) ltac:(lia)) as (vx & Vx & Ex).
  destruct (proj1 (c32_pow_exact t b n y W S B M2 Y) ltac:(lia)) as (vy & Vy & Ey).
  assert (CX : canonical x) by (apply (c120_lowest_terms t b m x W S B M1 X); tauto).
  assert (CY : canonical y) by (apply (c120_lowest_terms t b n y W S B M2 Y); tauto).
  destruct (low_of_canonical x vx CX Vx) as [Lx Dx]. destruct (low_of_canonical y vy CY Vy) as [Ly Dy].
  destruct (c120_parts t b m x W S B M1 X) as [Px Nx]. destruct (c120_parts t b n y W S B M2 Y) as [Py Ny].
  assert (R : forall k, 0 <= k -> 0 < b ^ k) by (intros k K; apply Z.pow_pos_nonneg; lia).
  assert (I : forall k, 0 <= k -> in_rep t (b ^ k) = true <-> b ^ k <= rmax t).
  { intros k K. specialize (R k K). rewrite in_rep_iff. pose proof (rmin_nonpos t W). lia. }
  pose proof (Machine_proofs.rmax_big t W) as BG.
  assert (BX : raw_bounded (rmax t) x /\ raw_bounded (rmax t) y).
  { destruct WX as [A1 A2], WY as [A3 A4]. apply in_rep_iff in A1, A2, A3, A4. unfold raw_bounded.
    destruct (Z_le_gt_dec 0 m) as [L|G]; destruct (Z_le_gt_dec 0 n) as [L'|G'].
    - destruct (Px L) as [-> ->], (Py L') as [-> ->]. pose proof (R m L). pose proof (R n L'). lia.
    - destruct (Px L) as [-> ->], (Ny ltac:(lia)) as [-> ->]. pose proof (R m L). pose proof (R (- n) ltac:(lia)). lia.
    - destruct (Nx ltac:(lia)) as [-> ->], (Py L') as [-> ->]. pose proof (R (- m) ltac:(lia)). pose proof (R n L'). lia.
    - destruct (Nx ltac:(lia)) as [-> ->], (Ny ltac:(lia)) as [-> ->]. pose proof (R (- m) ltac:(lia)). pose proof (R (- n) ltac:(lia)). lia. }
  destruct BX as [BX BY].
  rewrite (c82_arith_defined_iff t Multiplies x y vx vy SR BX BY Vx Vy). unfold enough. cbv zeta.
  rewrite Lx, Ly, Dx, Dy. rewrite c32_pow_defined_iff by auto.
  destruct BX as [B1 B2], BY as [B3 B4].
  destruct (Z_le_gt_dec 0 m) as [L|G]; destruct (Z_le_gt_dec 0 n) as [L'|G'].
  - destruct (Px L) as [E1 E2], (Py L') as [E3 E4]. rewrite E1, E2, E3, E4 in *. rewrite Z.abs_eq by lia. rewrite I by lia.
    rewrite <- Z.pow_add_r by lia. pose proof (R (m + n) ltac:(lia)). rewrite Z.abs_eq by lia.
    split; [tauto|]. intros [K|K]; [|lia]. split; [|lia].
    assert (O : m = 0 \/ n = 0) by nia. destruct O as [O|O]; rewrite O in *; rewrite ?Z.add_0_l, ?Z.add_0_r in *; lia.
  - destruct (Px L) as [E1 E2], (Ny ltac:(lia)) as [E3 E4]. rewrite E1, E2, E3, E4 in *.
    split; [intros _; left; apply Z.mul_nonneg_nonpos; lia|]. intros _. rewrite Z.mul_1_r, Z.mul_1_l. lia.
  - destruct (Nx ltac:(lia)) as [E1 E2], (Py L') as [E3 E4]. rewrite E1, E2, E3, E4 in *.
    split; [intros _; left; apply Z.mul_nonpos_nonneg; lia|]. intros _. rewrite Z.mul_1_r, Z.mul_1_l. lia.
  - destruct (Nx ltac:(lia)) as [E1 E2], (Ny ltac:(lia)) as [E3 E4]. rewrite E1, E2, E3, E4 in *.
    rewrite (Z.abs_neq (m + n)) by lia. rewrite I by lia. rewrite <- Z.pow_add_r by lia.
    replace (- m + - n) with (- (m + n)) by lia.
    pose proof (R (- (m + n)) ltac:(lia)).
    split; [intros [_ K]; right; lia|]. intros [K|K]; [|split; lia]. exfalso. pose proof (Z.mul_neg_neg m n). lia.
Qed.

Lemma c120_monotone : forall o t b m n x y c, wf_rep t -> rsigned t = true -> in_rep t b = true -> 1 < b ->
  -2147483647 <= m <= 2147483647 -> -2147483647 <= n <= 2147483647 ->
  f_pow t b m = Ok x -> f_pow t b n = Ok y -> p_cmp (denote o) t Lt (RR x y) = Ok c ->
  (c = true <-> m < n).
Proof.
  intros o t b m n x y c W S B N M1 M2 X Y H.
  pose proof (pow_in t b m x W S B M1 X) as WX. pose proof (pow_in t b n y W S B M2 Y) as WY.
  destruct (proj1 (c32_pow_exact t b m x W S B M1 X) ltac:(lia)) as (vx & Vx & Ex).
  destruct (proj1 (c32_pow_exact t b n y W S B M2 Y) ltac:(lia)) as (vy & Vy & Ey).
  assert (PD : forall e r, -2147483647 <= e <= 2147483647 -> f_pow t b e = Ok r -> 0 < den r).
  { intros e r E F. destruct (c120_parts t b e r W S B E F) as [P Q]. destruct (Z_le_gt_dec 0 e) as [L|G].
    - destruct (P L) as [_ ->]. lia.
    - destruct (Q ltac:(lia)) as [_ ->]. apply Z.pow_pos_nonneg; lia. }
  apply denote_cmp in H; [|exact W|exact S|split; [exact WX|exact WY]|right; right; left; split; [exact (PD m x M1 X)|exact (PD n y M2 Y)]].
  cbn [left_value right_value] in H. rewrite Vx, Vy in H.
  assert (LT : (vx < vy)%Q <-> m < n).
  { rewrite Ex, Ey. assert (P1 : (1 < inject_Z b)%Q) by (change 1%Q with (inject_Z 1); rewrite <- Zlt_Qlt; lia).
    split; intros K.
    - destruct (Z_lt_le_dec m n) as [L|G]; [exact L|]. exfalso.
      apply (Qlt_not_le _ _ K). apply Qpower_le_compat_l; [exact G|lra].
    - apply Qpower_lt_compat_l; auto. }
  rewrite <- LT. subst c. apply (exact_lt_char Lt vx vy). now left.
Qed.

Lemma c120_negative_base : forall t b e r c d, wf_rep t -> rsigned t = true -> in_rep t b = true -> b < 0 ->
  -2147483647 <= e < 0 -> Z.odd e = true -> f_pow t b e = Ok r ->
  (exists q, value r = Some q /\ (q < 0)%Q) /\
  (p_cmp (denote defaults) t Lt (RI r 0) = Ok c -> p_cmp (denote defaults) t Lt (IR 0 r) = Ok d -> c = false /\ d = true).
Proof.
  intros t b e r c d W S B N E O H.
  destruct (c120_parts t b e r W S B ltac:(lia) H) as [_ P]. destruct (P ltac:(lia)) as [P1 P2].
  assert (NEG : den r < 0).
  { rewrite P2. assert (O' : Z.odd (- e) = true) by (rewrite Z.odd_opp; exact O).
    pose proof (Z.pow_odd_abs_sgn b (- e) ltac:(apply Z.odd_spec; exact O')).
    pose proof (Z.pow_pos_nonneg (Z.abs b) (- e) ltac:(lia) ltac:(lia)). rewrite (Z.sgn_neg b N) in *. nia. }
  assert (V : value r = Some (inject_Z (num r) / inject_Z (den r))%Q) by (apply value_defined; lia).
  assert (Q0 : (inject_Z (num r) / inject_Z (den r) < 0)%Q).
  { rewrite P1. assert (ND : (inject_Z (den r) < 0)%Q) by (change 0%Q with (inject_Z 0); rewrite <- Zlt_Qlt; lia).
    setoid_replace (inject_Z 1 / inject_Z (den r))%Q with (- (/ (- inject_Z (den r))))%Q by (field; lra).
    assert (0 < / - inject_Z (den r))%Q by (apply Qinv_lt_0_compat; lra). lra. }
  split; [eauto|]. intros H1 H2.
  destruct (c14_order_negative_reversed defaults t r 0 c d _ Lt W S (pow_in t b e r W S B ltac:(lia) H) ltac:(apply Machine_proofs.in_rep_abs; auto; pose proof (Machine_proofs.rmax_big t W); lia) NEG eq_refl V (or_introl eq_refl) H1 H2) as [F G].
  split.
  - destruct c; [|reflexivity]. exfalso. apply (Qlt_not_le _ _ (proj1 F eq_refl)). apply Qlt_le_weak. exact Q0.
  - apply G. exact Q0.
Qed.

Lemma c120_refuted : exists b e r, f_pow int32 b e = Ok r /\ b < 0 /\ Z.odd e = true /\
  p_cmp (denote defaults) int32 Lt (RI r 0) = Ok false /\ p_cmp (denote defaults) int32 Gt (RI r 0) = Ok true.
Proof.
  exists (-2), (-1), (mkRaw 1 (-2)). split; [vm_compute; reflexivity|]. split; [lia|]. split; [reflexivity|].
  split; vm_compute; reflexivity.
Qed.

