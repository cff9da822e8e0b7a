(** Proofs about the static members of numeric_limits. *)

From Coq Require Import ZArith QArith Lia Lqa Psatz Bool.
From Verif Require Import Machine Raw Ops Spec Fraction Limits Limits2 Mixed_spec.
From Verif Require Import Machine_proofs Value_proofs Ops_proofs Cmp_proofs Algebra_proofs Fraction_proofs Tight_proofs Fmath_proofs Literals_proofs Float_proofs Chrono_proofs.
Open Scope Z_scope.

Lemma range : forall t, wf_rep t -> rmax t = 2 ^ rep_digits t - 1 /\ rmin t = (if rsigned t then - 2 ^ rep_digits t else 0).
Proof. intros [[] b] W; cbn; auto. Qed.

Lemma digits_pos : forall t, wf_rep t -> 31 <= rep_digits t.
Proof. intros [[] b] W; unfold wf_rep, rep_digits in *; cbn in *; lia. Qed.

Lemma int_value : forall z, value (mkRaw z 1) = Some (inject_Z z / inject_Z 1)%Q.
Proof. reflexivity. Qed.

Lemma is_signed_iff : forall t, wf_rep t ->
  (nl_is_signed t = true <-> exists v q, wf_raw t v /\ value v = Some q /\ (q < 0)%Q).
Proof.
  intros t W. unfold nl_is_signed. destruct (range t W) as [MX MN]. pose proof (digits_pos t W) as D.
  pose proof (rmax_big t W) as B. split.
  - intros S. rewrite S in MN. exists (mkRaw (-1) 1), (inject_Z (-1) / inject_Z 1)%Q. split; [|split; [reflexivity|reflexivity]].
    pose proof (pow2_pos (rep_digits t) ltac:(lia)). split; cbn [num den]; apply in_rep_iff; lia.
  - intros [[n d] [q [[N DD] [V Q]]]]. destruct (rsigned t); auto. exfalso.
    apply in_rep_iff in N. apply in_rep_iff in DD. cbn [num den] in *. rewrite MN in N, DD.
    unfold value in V. cbn [num den] in V. destruct (Z.eqb_spec d 0); [discriminate|]. injection V as <-.
    assert (0 <= inject_Z n / inject_Z d)%Q; [|lra].
    apply Qle_shift_div_l; [change 0%Q with (inject_Z 0); rewrite <- Zlt_Qlt; lia|].
    rewrite Qmult_0_l. change 0%Q with (inject_Z 0). rewrite <- Zle_Qle. lia.
Qed.

Lemma int_in : forall t z, wf_rep t -> (if rsigned t then Z.abs z < 2 ^ rep_digits t else 0 <= z < 2 ^ rep_digits t) ->
  in_rep t z = true.
Proof.
  intros t z W H. apply in_rep_iff. destruct (range t W) as [MX MN]. rewrite MX, MN. destruct (rsigned t); lia.
Qed.

Lemma digits_iff : forall t n, wf_rep t -> 0 <= n ->
  (n <= nl_digits t <->
   forall z, (if nl_is_signed t then Z.abs z < nl_radix ^ n else 0 <= z < nl_radix ^ n) ->
     exists v, wf_raw t v /\ same_value (value v) (Some (inject_Z z))).
Proof.
  intros t n W N. unfold nl_digits, nl_is_signed, nl_radix. pose proof (rmax_big t W) as B. pose proof (rmin_nonpos t W) as M. split.
  - intros L z Z. exists (mkRaw z 1). split.
    + split; cbn [num den]; [|apply in_rep_iff; lia]. apply int_in; auto.
      pose proof (pow2_le n (rep_digits t) ltac:(lia)). destruct (rsigned t); lia.
    + rewrite int_value. cbn [same_value]. apply qdiv_1.
  - intros H. destruct (Z.le_gt_cases n (rep_digits t)) as [L|L]; auto. exfalso.
    destruct (range t W) as [MX MN]. pose proof (digits_pos t W) as D.
    pose proof (pow2_lt (rep_digits t) n ltac:(lia)) as P. pose proof (pow2_pos (rep_digits t) ltac:(lia)) as PP.
    pose proof (pow2_le (rep_digits t + 1) n ltac:(lia)) as P1.
    rewrite Z.pow_add_r in P1 by lia. change (2 ^ 1) with 2 in P1.
    assert (P2 : 2 <= 2 ^ rep_digits t) by (change 2 with (2 ^ 1) at 1; apply pow2_le; lia).
    destruct (H (2 ^ rep_digits t + 1)) as [[a b] [[WN WD] V]].
    { destruct (rsigned t); lia. }
    cbn [num den] in *. apply in_rep_iff in WN. apply in_rep_iff in WD.
    unfold value in V. cbn [num den] in V. destruct (Z.eqb_spec b 0) as [|Z]; [contradiction|]. cbn [same_value] in V.
    assert (E : a = (2 ^ rep_digits t + 1) * b).
    { apply inject_Z_injective. rewrite inject_Z_mult, <- V. field. now apply iz_nz. }
    rewrite MX, MN in WN. clear V H P P1. set (k := 2 ^ rep_digits t) in *. clearbody k.
    destruct (rsigned t); nia.
Qed.

Lemma pow10_le : forall d, 0 <= d -> 10 ^ (d * 643 / 2136) <= 2 ^ d.
Proof.
  intros d D. set (k := d * 643 / 2136).
  assert (K : 0 <= k) by (unfold k; apply Z.div_pos; lia).
  assert (KM : 2136 * k <= 643 * d) by (unfold k; pose proof (Z.mul_div_le (d * 643) 2136 ltac:(lia)); lia).
  destruct (Z.le_gt_cases (10 ^ k) (2 ^ d)) as [L|L]; auto. exfalso.
  assert (A : (2 ^ d) ^ 643 < (10 ^ k) ^ 643) by (apply Z.pow_lt_mono_l; [lia|split; [apply Z.pow_nonneg; lia|auto]]).
  rewrite <- !Z.pow_mul_r in A by lia.
  replace (k * 643) with (643 * k) in A by ring. rewrite (Z.pow_mul_r 10) in A by lia.
  assert (B : (10 ^ 643) ^ k <= (2 ^ 2136) ^ k).
  { apply Z.pow_le_mono_l. split; [apply Z.pow_nonneg; lia|]. apply Z.leb_le. vm_compute. reflexivity. }
  rewrite <- (Z.pow_mul_r 2 2136 k) in B by lia.
  assert (C : 2 ^ (2136 * k) <= 2 ^ (d * 643)) by (apply Z.pow_le_mono_r; lia).
  exact (Z.lt_irrefl _ (Z.lt_le_trans _ _ _ A (Z.le_trans _ _ _ B C))).
Qed.

Lemma digits10_fit : forall t z, wf_rep t ->
  (if nl_is_signed t then Z.abs z < 10 ^ nl_digits10 t else 0 <= z < 10 ^ nl_digits10 t) ->
  exists v, wf_raw t v /\ same_value (value v) (Some (inject_Z z)).
Proof.
  intros t z W H. pose proof (digits_pos t W) as D. pose proof (pow10_le (rep_digits t) ltac:(lia)) as P.
  unfold nl_is_signed, nl_digits10, rep_digits10 in H.
  apply (proj1 (digits_iff t (rep_digits t) W ltac:(lia))); [unfold nl_digits; lia|].
  unfold nl_is_signed, nl_radix. destruct (rsigned t); lia.
Qed.

Lemma bounded_values : forall t v q, signed_rep t -> wf_raw t v -> value v = Some q ->
  (- inject_Z (2 ^ nl_digits t) <= q <= inject_Z (2 ^ nl_digits t))%Q.
Proof.
  intros t [n d] q [W S] [N D] V. destruct (range t W) as [MX MN]. rewrite S in MN.
  apply in_rep_iff in N. apply in_rep_iff in D. cbn [num den] in *. unfold nl_digits. set (k := 2 ^ rep_digits t) in *.
  unfold value in V. cbn [num den] in V. destruct (Z.eqb_spec d 0) as [|Z]; [discriminate|]. injection V as <-.
  assert (E : forall a, (inject_Z n / inject_Z d == a)%Q -> (inject_Z n == a * inject_Z d)%Q).
  { intros a A. rewrite <- A. field. now apply iz_nz. }
  destruct (Z_lt_le_dec d 0) as [L|L].
  - assert (R : (inject_Z n / inject_Z d == inject_Z (- n) / inject_Z (- d))%Q) by (apply qdiv_eq; lia).
    rewrite R. assert (0 < inject_Z (- d))%Q by (change 0%Q with (inject_Z 0); rewrite <- Zlt_Qlt; lia).
    split; [apply Qle_shift_div_l; auto|apply Qle_shift_div_r; auto]; rewrite <- ?inject_Z_opp, <- inject_Z_mult, <- Zle_Qle; nia.
  - assert (0 < inject_Z d)%Q by (change 0%Q with (inject_Z 0); rewrite <- Zlt_Qlt; lia).
    split; [apply Qle_shift_div_l; auto|apply Qle_shift_div_r; auto]; rewrite <- ?inject_Z_opp, <- inject_Z_mult, <- Zle_Qle; nia.
Qed.

Lemma quiet_NaN_absorbs : forall o t v, signed_rep t -> wf_raw t v ->
  value nl_quiet_NaN = None /\
  (forall b, p_cmp (denote o) t Eq (RR nl_quiet_NaN v) = Ok b -> b = false) /\
  (forall b, p_cmp (denote o) t Ne (RR nl_quiet_NaN v) = Ok b -> b = true) /\
  (forall op r, p_arith (denote o) t op (RR nl_quiet_NaN v) = Ok r -> op <> Divides \/ value v <> None -> value r = None).
Proof.
  intros o t v [W S] WV.
  assert (Z : in_rep t 0 = true) by (apply in_rep_iff; pose proof (rmax_big t W); pose proof (rmin_nonpos t W); lia).
  assert (WA : wf_args t (RR nl_quiet_NaN v)) by (split; auto; split; auto).
  assert (U : ~ defined_args (RR nl_quiet_NaN v)) by (intros [X _]; now apply X).
  split; [reflexivity|]. split; [|split].
  - intros b H. now apply (denote_cmp_undefined o t Eq (RR nl_quiet_NaN v) b).
  - intros b H. now apply (denote_cmp_undefined o t Ne (RR nl_quiet_NaN v) b).
  - intros op r H D.
    assert (X : same_value (value r) (exact_opt op (value nl_quiet_NaN) (value v))).
    { apply (denote_exact_opt o t op (RR nl_quiet_NaN v) r W S); auto. destruct D; auto. }
    change (value nl_quiet_NaN) with (@None Q) in X. cbn [exact_opt] in X. destruct (value r); [contradiction|auto].
Qed.

Lemma is_modulo_refuted : exists l r v x,
  nl_is_modulo uint32 = true /\ wf_raw uint32 l /\ wf_raw uint32 r /\
  p_arith (denote defaults) uint32 Plus (RR l r) = Ok v /\ value v = Some x /\
  forall y k, exact_opt Plus (value l) (value r) = Some y ->
    ~ (y == x + inject_Z k * inject_Z (rmax uint32 - rmin uint32 + 1))%Q.
Proof.
  exists (mkRaw 1 2), (mkRaw 4294967295 1), (mkRaw 4294967295 2), (inject_Z 4294967295 / inject_Z 2)%Q.
  split; [reflexivity|]. split; [split; reflexivity|]. split; [split; reflexivity|].
  split; [vm_compute; reflexivity|]. split; [reflexivity|].
  intros y k Y E. injection Y as <-. 
  assert (X : (inject_Z 1 == inject_Z (2 * k))%Q).
  { rewrite inject_Z_mult. vm_compute (rmax uint32 - rmin uint32 + 1) in E.
    change (inject_Z 4294967296) with 4294967296%Q in E. change (inject_Z 2) with 2%Q in *.
    change (inject_Z 1) with 1%Q in *. change (inject_Z 4294967295) with 4294967295%Q in E.
    assert (E2 : (1 / 2 + 4294967295 / 1 == 8589934591 # 2)%Q) by reflexivity. rewrite E2 in E.
    assert (E3 : (4294967295 / 2 == 4294967295 # 2)%Q) by reflexivity. rewrite E3 in E. lra. }
  pose proof (proj1 (inject_Z_injective 1 (2 * k)) X). lia.
Qed.

Lemma traps_refuted : forall o, nl_traps = false /\
  p_arith (denote o) int32 Modulus (RR (mkRaw 1 1) (mkRaw 0 1)) = UB DivByZero.
Proof.
  intros o. split; auto. assert (SR : signed_rep int32) by (split; [unfold wf_rep; cbn; lia|reflexivity]).
  induction o as [| |o IH m|o IH m]; cbn [denote]; try reflexivity.
  - rewrite ri_arith_eq. cbn [reduce_args]. rewrite !reduce_int by (auto; cbn; lia). exact IH.
  - rewrite ro_arith_eq, IH. reflexivity.
Qed.
