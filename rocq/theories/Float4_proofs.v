(** Where the conversion of floating-point numbers to fractions is defined. *)

From Coq Require Import ZArith Znumtheory QArith Qabs Qpower List Bool Lia Lqa.
From Flocq Require Import IEEE754.BinarySingleNaN.
From Flocq Require Import IEEE754.Binary IEEE754.Bits.
From Verif Require Import Machine Raw Ops Spec Fraction Fmath Limits Float Float_spec Mixed_spec.
From Verif Require Import Machine_proofs Value_proofs Ops_proofs Algebra_proofs Fraction_proofs Fmath_proofs
  Literals_proofs Mixed_proofs Tight_proofs Float_proofs Float2_proofs.
Open Scope Z_scope.

Lemma reduce_canonical_id : forall t v m r, wf_rep t -> wf_raw t v -> canonical v -> 0 < den v ->
  reduce t v m = Ok r -> r = v.
Proof.
  intros t v m r W A C D H. apply reduce_spec in H as [_ [R _]]; auto.
  destruct R as [[E _]|[_ [g [G [N [Dn [P [S1 S2]]]]]]]]; [lia|].
  destruct C as [[_ E]|[_ C]]; [lia|].
  assert (Z.abs g = 1).
  { rewrite N, Dn, Z.gcd_mul_mono_l, P in C. lia. }
  assert (0 < g).
  { destruct m; [|auto]. specialize (S1 eq_refl). nia. }
  assert (g = 1) by lia. subst g. rewrite Z.mul_1_l in N, Dn. destruct r as [rn rd], v as [vn vd]. cbn [num den] in N, Dn. now subst.
Qed.

(** The product of fractions in lowest terms, under a policy that returns lowest
    terms, is only defined if the plain products fit. *)
Lemma product_needs : forall o t x w r, signed_rep t -> wf_raw t x -> wf_raw t w ->
  canonical x -> canonical w -> 0 < den x -> 0 < den w ->
  p_arith (denote o) t Multiplies (RR x w) = Ok r ->
  (output_canonical o = false /\ r = mkRaw (num x * num w) (den x * den w)) \/
  (Z.abs (num x * num w) <= rmax t /\ Z.abs (den x * den w) <= rmax t).
Proof.
  intros o t x w r SR A B C D Dx Dw. pose proof SR as [W S]. revert r.
  assert (F : forall r, fast_multiplies_rr t x w = Ok r -> r = mkRaw (num x * num w) (den x * den w)).
  { intros r H. unfold fast_multiplies_rr in H. inv_bind H.
    apply (arith_signed t _ _ S) in E. apply (arith_signed t _ _ S) in E0. subst. now injection H as <-. }
  induction o as [| |o IH m|o IH m]; intros r H; cbn [denote] in H.
  - left. split; [reflexivity|]. apply F. exact H.
  - left. split; [reflexivity|]. apply F. exact H.
  - rewrite ri_arith_eq in H. cbn [reduce_args] in H. inv_bind H. inv_bind E.
    apply reduce_canonical_id in E0; auto. apply reduce_canonical_id in E1; auto. injection E as <-. subst.
    exact (IH r H).
  - rewrite ro_arith_eq in H. inv_bind H. right. destruct (IH a eq_refl) as [[_ ->]|K]; auto.
    apply reduce_ok_fits in H; auto. cbn [den]. nia.
Qed.

Lemma pow2_raw_canonical : forall e,
  let w := if e >=? 0 then mkRaw (2 ^ e) 1 else mkRaw 1 (2 ^ (- e)) in canonical w /\ 0 < den w.
Proof.
  intros e. cbn zeta. destruct (Z.geb_spec e 0); (split; [right; cbn [num den]; split|cbn [den]]).
  - lia.
  - apply Z.gcd_1_r.
  - lia.
  - apply pow2_pos; lia.
  - apply Z.gcd_1_l.
  - apply pow2_pos; lia.
Qed.

Lemma fields_need : forall o t mb eb s m e r, output_canonical o = true ->
  signed_rep t -> 0 < mb <= rbits t - 2 -> rbits t <= 2 ^ 31 ->
  0 <= m < 2 ^ mb -> 0 <= e < 2 ^ eb - 1 ->
  let E := e - (2 ^ (eb - 1) - 1) in Z.abs E <= rbits t - 2 ->
  of_fields (denote o) t mb eb s m e = Ok r ->
  exists n k, 0 <= k /\ 2 ^ k <= n < 2 ^ (k + 1) /\ n * 2 ^ mb = (2 ^ mb + m) * 2 ^ k /\
    k + Z.abs E <= rbits t - 2.
Proof.
  intros o t mb eb s m e r C SR M B Hm He E HE H. rewrite fields_unfold in H by auto. fold E in H.
  inv_bind H. pose proof SR as [W S]. rename a into x, a0 into y, a1 into w, E0 into X, E1 into Y, E2 into P.
  pose proof (pow2_pos mb ltac:(lia)) as PM. pose proof (rmax_signed t SR) as RM.
  pose proof (pow2_lt mb (rbits t - 1) ltac:(lia)) as LM. pose proof (rmax_big t W) as RB.
  destruct (mantissa_value o t mb m x SR M Hm X) as [WX VX].
  destruct (signed_value o t s x y _ SR WX VX Y) as [WY VY].
  rewrite f_pow2_raw in P by auto. injection P as <-.
  pose proof (pow2_raw_bound t E SR HE) as [WW _]. cbn zeta in WW.
  pose proof (pow2_raw_canonical E) as [CW DW].
  assert (CY : canonical y).
  { rewrite f_arith_self in Y. apply (denote_canonical o t _ _ y W) in Y; auto.
    split; auto. apply abs_fits; auto. destruct s; cbn; lia. }
  assert (DY : 0 < den y).
  { destruct CY as [[_ D]|[D _]]; auto. apply value_none_iff in D. rewrite D in VY. contradiction. }
  rewrite f_arith_self in H. apply product_needs in H; auto.
  destruct H as [[H _]|[H1 H2]]; [congruence|].
  (* the parts of y *)
  rewrite (value_defined y) in VY by lia. cbn [same_value] in VY.
  assert (V : num y * 2 ^ mb = sgn s * (2 ^ mb + m) * den y).
  { apply (proj1 (qdiv_eq (num y) (den y) (sgn s * (2 ^ mb + m)) (2 ^ mb) ltac:(lia) ltac:(lia))).
    rewrite VY, inject_Z_mult. field. apply iz_nz. lia. }
  assert (G : (den y | 2 ^ mb)).
  { destruct CY as [[_ D]|[_ D]]; [lia|]. apply (Z.gauss _ (num y)); [|now rewrite Z.gcd_comm].
    exists (sgn s * (2 ^ mb + m)). exact V. }
  destruct (divides_pow2 0 0 mb (den y) ltac:(lia) DY G) as [k [K Dk]].
  pose proof (pow2_pos k ltac:(lia)) as PK.
  apply (f_equal Z.abs) in V. rewrite !Z.abs_mul, (Z.abs_eq (2 ^ mb)), (Z.abs_eq (2 ^ mb + m)), (Z.abs_eq (den y)) in V by lia.
  replace (Z.abs (sgn s)) with 1 in V by (destruct s; reflexivity). rewrite Z.mul_1_l, Dk in V.
  set (n := Z.abs (num y)) in *.
  assert (N : 2 ^ k <= n < 2 ^ (k + 1)).
  { rewrite Z.pow_add_r by lia. change (2 ^ 1) with 2. clear - V Hm PM PK. nia. }
  exists n, k. split; [lia|]. split; [exact N|]. split; [exact V|].
  rewrite Z.abs_mul in H1. fold n in H1.
  apply Z.nlt_ge. intros L. destruct (Z.geb_spec E 0); cbn [num den] in H1, H2.
  - pose proof (pow2_pos E ltac:(lia)). rewrite (Z.abs_eq (2 ^ E)) in H1 by lia.
    assert (H4 : 2 ^ k * 2 ^ E <= n * 2 ^ E) by (apply Z.mul_le_mono_nonneg_r; lia).
    rewrite <- Z.pow_add_r in H4 by lia. pose proof (pow2_le (rbits t - 1) (k + E) ltac:(lia)). lia.
  - pose proof (pow2_pos (- E) ltac:(lia)). rewrite Dk, <- Z.pow_add_r in H2 by lia.
    pose proof (pow2_le (rbits t - 1) (k + - E) ltac:(lia)). pose proof (pow2_pos (k + - E) ltac:(lia)). lia.
Qed.

Section Format.
Variables mw ew : Z.
Hypothesis Hmw : 0 < mw.
Hypothesis Hew : 0 < ew.
Hypothesis Hew1 : 1 < ew <= 30.
Let prec := mw + 1.
Let emax := 2 ^ (ew - 1).
Hypothesis Hmax : mw + 1 < emax.

Let float := binary_float prec emax.
Let bits := bits_of_binary_float mw ew.

Theorem of_float_defined_iff : forall o t n (x : float) q, output_canonical o = true -> signed_rep t ->
  8 * Z.of_nat n = mw + ew + 1 -> mw + 2 <= rbits t <= 2 ^ 31 -> rbits t < emax -> float_value x = Some q ->
  (exists r, floating_point_to_fraction (denote o) t little n mw ew (bits x) = Ok r) <->
  (exists k E, significant k E q /\ k + Z.abs E <= rbits t - 2).
Proof.
  intros o t n x q C SR N B RB V. pose proof SR as [W S]. split.
  - intros [r H]. unfold bits in H.
    assert (EM : emax <= 2 ^ 30) by (apply pow2_le; lia).
    assert (E2 : 2 ^ ew = 2 * emax) by (unfold emax; rewrite <- Z.pow_succ_r by lia; f_equal; lia).
    destruct (Qlt_le_dec (Qabs q) ((2 # 1) ^ (2 - emax))) as [L|L].
    { rewrite (of_float_small mw ew Hmw Hew Hew1 Hmax o t n x q) in H; auto. discriminate. }
    destruct (normal_fields mw ew Hmw Hew x q V L) as [s [m [e [F [M [E [V1 [V2 _]]]]]]]].
    rewrite (of_float_fields mw ew Hmw Hew Hew1) in H by auto. rewrite F in H.
    set (X := e - (2 ^ (ew - 1) - 1)) in *.
    assert (HX : Z.abs X <= rbits t - 2).
    { destruct (Z.lt_trichotomy (Z.abs X) (rbits t - 1)) as [G|[G|G]]; [lia| |]; exfalso.
      - revert H. apply fields_edge; auto; lia.
      - rewrite (fields_out mw ew Hew o t mw ew s m e) in H; auto; try discriminate; try lia. }
    destruct (fields_need o t mw ew s m e r C SR) as [i [k [K [I [J L']]]]]; auto; try lia.
    exists k, X. split; [|exact L']. exists i. split; [split; auto|].
    rewrite V2, !Qpow_sub. pose proof (Qpow_pos mw). pose proof (Qpow_pos k).
    assert (J' : (inject_Z i * (2 # 1) ^ mw == inject_Z (2 ^ mw + m) * (2 # 1) ^ k)%Q).
    { rewrite <- !Qpow_Z, <- !inject_Z_mult by lia. now rewrite J. }
    assert (J2 : (inject_Z (2 ^ mw + m) == inject_Z i * (2 # 1) ^ mw / (2 # 1) ^ k)%Q) by (rewrite J'; field; lra).
    rewrite J2. field. split; lra.
  - intros [k [E [[i [[K I] Q]] L]]].
    destruct (of_float_significant mw ew Hmw Hew Hew1 Hmax o t n x q k E) as [r [H _]]; auto.
    { exists i; auto. } { fold emax. lia. }
    exists r. exact H.
Qed.
End Format.
