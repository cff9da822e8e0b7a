(** Proofs about the conversion of floating-point numbers to fractions. *)

From Coq Require Import ZArith Znumtheory Zpow_facts QArith Qabs Qpower List Bool Lia Lqa.
From Flocq Require Import IEEE754.BinarySingleNaN.
From Flocq Require Import IEEE754.Binary IEEE754.Bits.
From Verif Require Import Machine Raw Ops Spec Fraction Fmath Limits Float Float_spec Mixed_spec Tight_spec.
From Verif Require Import Machine_proofs Value_proofs Ops_proofs Algebra_proofs Fraction_proofs Fmath_proofs Fmath2_proofs
  Limits_proofs Literals_proofs Mixed_proofs Tight_proofs Chrono_proofs.
Import ListNotations.
Open Scope Z_scope.

(** Bytes. *)
Lemma bytes_round_trip : forall n u, 0 <= u < 256 ^ Z.of_nat n -> of_bytes_little (bytes_little n u) = u.
Proof.
  induction n as [|n IH]; intros u H.
  - change (256 ^ Z.of_nat 0) with 1 in H. cbn. lia.
  - cbn [bytes_little of_bytes_little]. rewrite Nat2Z.inj_succ, Z.pow_succ_r in H by lia.
    rewrite IH.
    + pose proof (Z.div_mod u 256 ltac:(lia)). lia.
    + split; [apply Z.div_pos; lia|]. apply Z.div_lt_upper_bound; lia.
Qed.

Lemma as_uint_id : forall e n u, 0 <= u < 256 ^ Z.of_nat n -> as_uint_rep e n u = u.
Proof.
  intros e n u H. unfold as_uint_rep, uint_of_bytes, object_bytes.
  destruct e; rewrite ?rev_involutive; now apply bytes_round_trip.
Qed.

(** Bit fields. *)
Lemma extract_eq : forall u off size, 0 <= off -> 0 <= size ->
  extract_bit_field u off size = (u / 2 ^ off) mod 2 ^ size.
Proof.
  intros u off size O S. unfold extract_bit_field, make_repeating_1s.
  change (Z.shiftl 1 size - 1) with (Z.pred (Z.shiftl 1 size)). fold (Z.ones size).
  rewrite Z.shiftr_div_pow2, Z.land_ones by auto. reflexivity.
Qed.

Lemma ones_eq : forall n, 0 <= n -> make_repeating_1s n = 2 ^ n - 1.
Proof. intros n H. unfold make_repeating_1s. rewrite Z.shiftl_mul_pow2 by auto. lia. Qed.

(** On a big-endian target the fields are taken from the wrong places. *)
Lemma rearranged_range : forall mw ew u, 0 < mw -> 0 < ew -> 0 <= u < 2 ^ (mw + ew + 1) ->
  0 <= u / 2 ^ (1 + ew) < 2 ^ mw /\ 0 <= rearranged mw ew u < 2 ^ (mw + ew + 1).
Proof.
  intros mw ew u M E U. assert (PM := Z.pow_pos_nonneg 2 mw ltac:(lia) ltac:(lia)). assert (PE := Z.pow_pos_nonneg 2 ew ltac:(lia) ltac:(lia)).
  assert (A : 0 <= u / 2 ^ (1 + ew) < 2 ^ mw).
  { split; [apply Z.div_pos; lia|]. apply Z.div_lt_upper_bound; [lia|]. rewrite <- Z.pow_add_r by lia.
    replace (1 + ew + mw) with (mw + ew + 1) by lia. lia. }
  split; auto. unfold rearranged.
  pose proof (Z.mod_pos_bound u 2 ltac:(lia)). pose proof (Z.mod_pos_bound (u / 2) (2 ^ ew) PE).
  rewrite (Z.pow_add_r 2 (mw + ew) 1) by lia. rewrite (Z.pow_add_r 2 mw ew) by lia. change (2 ^ 1) with 2.
  set (x := u mod 2) in *. set (y := (u / 2) mod 2 ^ ew) in *. set (z := u / 2 ^ (1 + ew)) in *. clearbody x y z. nia.
Qed.
Lemma rearranged_fields : forall mw ew u, 0 < mw -> 0 < ew -> 0 <= u < 2 ^ (mw + ew + 1) ->
  extract_bit_field (rearranged mw ew u) (mw + ew) 1 = extract_bit_field u 0 1 /\
  extract_bit_field (rearranged mw ew u) mw ew = extract_bit_field u 1 ew /\
  extract_bit_field (rearranged mw ew u) 0 mw = extract_bit_field u (1 + ew) mw.
Proof.
  intros mw ew u M E U. destruct (rearranged_range mw ew u M E U) as [A _].
  assert (PM := Z.pow_pos_nonneg 2 mw ltac:(lia) ltac:(lia)). assert (PE := Z.pow_pos_nonneg 2 ew ltac:(lia) ltac:(lia)).
  rewrite !extract_eq by lia. change (2 ^ 0) with 1. change (2 ^ 1) with 2. rewrite !Z.div_1_r.
  pose proof (Z.mod_pos_bound u 2 ltac:(lia)) as X. pose proof (Z.mod_pos_bound (u / 2) (2 ^ ew) PE) as Y.
  rewrite (Z.mod_small (u / 2 ^ (1 + ew))) by lia. unfold rearranged. rewrite (Z.pow_add_r 2 mw ew) by lia.
  set (x := u mod 2) in *. set (y := (u / 2) mod 2 ^ ew) in *. set (z := u / 2 ^ (1 + ew)) in *. clearbody x y z.
  set (a := 2 ^ mw) in *. set (b := 2 ^ ew) in *. clearbody a b.
  assert (Q : (x * (a * b) + y * a + z) / a = x * b + y).
  { replace (x * (a * b) + y * a + z) with (z + (x * b + y) * a) by ring. rewrite Z.div_add by lia. rewrite Z.div_small by lia. lia. }
  split; [|split].
  - rewrite <- Z.div_div by lia. rewrite Q. rewrite Z.div_add_l by lia. rewrite Z.div_small by lia. rewrite Z.add_0_r. apply Z.mod_small. lia.
  - rewrite Q. rewrite Z.add_comm, Z.mod_add by lia. apply Z.mod_small. lia.
  - replace (x * (a * b) + y * a + z) with (z + (x * b + y) * a) by ring. rewrite Z.mod_add by lia. apply Z.mod_small. lia.
Qed.
Lemma big_endian_eq : forall p t n mw ew u, 0 < mw -> 0 < ew -> 8 * Z.of_nat n = mw + ew + 1 -> 0 <= u < 2 ^ (mw + ew + 1) ->
  floating_point_to_fraction p t big n mw ew u = floating_point_to_fraction p t little n mw ew (rearranged mw ew u).
Proof.
  intros p t n mw ew u M E N U. destruct (rearranged_range mw ew u M E U) as [_ R].
  destruct (rearranged_fields mw ew u M E U) as [A [B C]].
  assert (P : 256 ^ Z.of_nat n = 2 ^ (mw + ew + 1)).
  { rewrite <- N. change 256 with (2 ^ 8). rewrite <- Z.pow_mul_r by lia. f_equal. }
  unfold floating_point_to_fraction. rewrite !as_uint_id by (rewrite P; auto). cbn [offsets]. now rewrite A, B, C.
Qed.

(** The computation on the three fields. *)
Definition of_fields (p : policy) (t : rep) (mb eb : Z) (s : bool) (m e : Z) : res raw :=
  if (e =? 2 ^ eb - 1) && negb (m =? 0) then Ok (mkRaw 0 0)
  else
    do sign <- (if s then m_neg t 1 else Ok 1);
    do md <- mu_pow2 t (cast t mb);
    do x <- f_arith p t t Plus (IR 1 (mkRaw (cast t m) md));
    do y <- f_arith p t t Multiplies (IR sign x);
    do w <- f_pow2 t (e - (2 ^ (eb - 1) - 1));
    f_arith p t t Multiplies (RR y w).

Lemma pow2_le : forall a b, 0 <= a <= b -> 2 ^ a <= 2 ^ b.
Proof. intros. apply Z.pow_le_mono_r; lia. Qed.
Lemma pow2_lt : forall a b, 0 <= a < b -> 2 ^ a < 2 ^ b.
Proof. intros. apply Z.pow_lt_mono_r; lia. Qed.
Lemma pow2_pos : forall a, 0 <= a -> 0 < 2 ^ a.
Proof. intros. apply Z.pow_pos_nonneg; lia. Qed.

Lemma int32_in : forall z, - 2 ^ 31 <= z < 2 ^ 31 -> in_rep int32 z = true.
Proof. intros z H. apply in_rep_iff. cbn. lia. Qed.

Lemma fields_eq : forall p t n mb eb u, wf_rep t -> 0 < mb -> 1 < eb <= 30 -> 8 * Z.of_nat n = mb + eb + 1 ->
  0 <= u < 2 ^ (mb + eb + 1) ->
  floating_point_to_fraction p t little n mb eb u =
  let '(s, m, e) := split_bits mb eb u in of_fields p t mb eb s m e.
Proof.
  intros p t n mb eb u W M E N U. unfold floating_point_to_fraction. cbn [offsets].
  assert (P256 : 256 ^ Z.of_nat n = 2 ^ (mb + eb + 1)).
  { change 256 with (2 ^ 8). rewrite <- Z.pow_mul_r by lia. f_equal. lia. }
  rewrite as_uint_id by (rewrite P256; auto).
  rewrite !extract_eq, ones_eq by lia. rewrite Z.pow_0_r, Z.div_1_r.
  unfold split_bits. unfold of_fields, limits_undefined.
  set (m := u mod 2 ^ mb). set (e := (u / 2 ^ mb) mod 2 ^ eb).
  pose proof (pow2_pos mb ltac:(lia)) as PM. pose proof (pow2_pos eb ltac:(lia)) as PE.
  assert (HE : 0 <= e < 2 ^ eb) by (apply Z.mod_pos_bound; auto).
  assert (E30 : 2 ^ eb <= 2 ^ 30) by (apply pow2_le; lia).
  destruct ((e =? 2 ^ eb - 1) && negb (m =? 0)); [reflexivity|].
  assert (SG : ((u / 2 ^ (mb + eb)) mod 2 ^ 1 =? 0) = negb (2 ^ mb * 2 ^ eb <=? u)).
  { rewrite <- Z.pow_add_r by lia. change (2 ^ 1) with 2.
    rewrite Z.add_comm, Z.pow_add_r in U by lia. rewrite Z.pow_1_r in U.
    assert (0 < 2 ^ (mb + eb)) by (apply pow2_pos; lia).
    destruct (Z.leb_spec (2 ^ (mb + eb)) u); cbn [negb].
    - assert (u / 2 ^ (mb + eb) = 1).
      { symmetry. apply Z.div_unique with (u - 2 ^ (mb + eb)); lia. }
      rewrite H1. reflexivity.
    - rewrite Z.div_small by lia. reflexivity. }
  rewrite SG. change Zle_bool with Z.leb.
  assert (S' : forall b : bool, (if negb b then Ok 1 else m_neg t 1) = (if b then m_neg t 1 else Ok 1)) by (intros []; reflexivity).
  rewrite S'. destruct (if 2 ^ mb * 2 ^ eb <=? u then m_neg t 1 else Ok 1) as [sg|]; cbn [bind]; [|reflexivity].
  assert (W32 : wf_rep int32) by (unfold wf_rep; cbn; lia).
  assert (PB : mu_pow2 int32 (eb - 1) = Ok (2 ^ (eb - 1))).
  { replace (mu_pow2 int32 (eb - 1)) with (mu_pow2 int32 (cast int32 (eb - 1)))
      by (unfold cast; rewrite wrap_id by (auto; apply int32_in; lia); reflexivity).
    rewrite mu_pow2_ok by (auto; lia).
    destruct (Z.ltb_spec (eb - 1) (rbits int32)); [|cbn in *; lia].
    rewrite wrap_id; auto. apply int32_in.
    pose proof (pow2_pos (eb - 1) ltac:(lia)). pose proof (pow2_le (eb - 1) 30 ltac:(lia)). lia. }
  rewrite PB. cbn [bind].
  pose proof (pow2_pos (eb - 1) ltac:(lia)). pose proof (pow2_le (eb - 1) 30 ltac:(lia)).
  assert (SS : signed_rep int32) by (split; auto).
  change (rmax int32) with (2 ^ 31 - 1) in *.
  rewrite (ssub _ _ _ SS) by (change (rmax int32) with (2 ^ 31 - 1); lia). cbn [bind].
  unfold cast at 1. rewrite (wrap_id int32 e) by (auto; apply int32_in; lia).
  rewrite (ssub _ _ _ SS) by (change (rmax int32) with (2 ^ 31 - 1); lia). cbn [bind].
  reflexivity.
Qed.

Lemma Qpow_pos : forall e, (0 < (2 # 1) ^ e)%Q.
Proof. intros e. apply Qpower_0_lt. reflexivity. Qed.
Lemma Qpow_Z : forall k, 0 <= k -> (inject_Z (2 ^ k) == (2 # 1) ^ k)%Q.
Proof. intros k H. change (2 # 1)%Q with (inject_Z 2). now rewrite Zpower_Qpower. Qed.
Lemma Qpow_add : forall a b, ((2 # 1) ^ (a + b) == (2 # 1) ^ a * (2 # 1) ^ b)%Q.
Proof. intros. apply Qpower_plus. discriminate. Qed.
Lemma Qpow_sub : forall a b, ((2 # 1) ^ (a - b) == (2 # 1) ^ a / (2 # 1) ^ b)%Q.
Proof. intros. unfold Z.sub. rewrite Qpow_add, Qpower_opp. reflexivity. Qed.

Definition sgn (s : bool) : Z := if s then -1 else 1.

Lemma rmax_signed : forall t, signed_rep t -> rmax t = 2 ^ (rbits t - 1) - 1.
Proof. intros t [W S]. unfold rmax. now rewrite S. Qed.

(** The power of two. *)
Lemma f_pow2_raw : forall t e, signed_rep t -> Z.abs e <= rbits t - 2 -> rbits t <= 2 ^ 31 ->
  f_pow2 t e = Ok (if e >=? 0 then mkRaw (2 ^ e) 1 else mkRaw 1 (2 ^ (- e))).
Proof.
  intros t e SR H B. pose proof SR as [W S]. rewrite f_pow2_eq by (auto; lia).
  destruct (Z.ltb_spec (Z.abs e) (rbits t)); [|lia]. f_equal.
  assert (K : forall k, 0 <= k <= rbits t - 2 -> wrap t (2 ^ k) = 2 ^ k).
  { intros k K. apply wrap_id; auto. apply abs_fits; auto. rewrite (rmax_signed t SR).
    pose proof (pow2_pos k ltac:(lia)). pose proof (pow2_lt k (rbits t - 1) ltac:(lia)). lia. }
  destruct (Z.geb_spec e 0); now rewrite K by lia.
Qed.

Lemma pow2_raw_value : forall e, same_value (value (if e >=? 0 then mkRaw (2 ^ e) 1 else mkRaw 1 (2 ^ (- e)))) (Some ((2 # 1) ^ e)%Q).
Proof.
  intros e. destruct (Z.geb_spec e 0).
  - rewrite value_defined by (cbn; lia). cbn [num den same_value]. rewrite qdiv_1, Qpow_Z by lia. reflexivity.
  - pose proof (pow2_pos (- e) ltac:(lia)). rewrite value_defined by (cbn [den]; lia). cbn [num den same_value].
    rewrite Qpow_Z by lia. rewrite Qpower_opp. change (inject_Z 1) with 1%Q. field. pose proof (Qpow_pos e). lra.
Qed.

Lemma pow2_raw_bound : forall t e, signed_rep t -> Z.abs e <= rbits t - 2 ->
  let w := if e >=? 0 then mkRaw (2 ^ e) 1 else mkRaw 1 (2 ^ (- e)) in
  wf_raw t w /\ Z.abs (num w) <= rmax t /\ Z.abs (den w) <= rmax t.
Proof.
  intros t e SR H. cbn zeta. pose proof (one_abs t (proj1 SR)) as O.
  assert (K : forall k, 0 <= k <= rbits t - 2 -> Z.abs (2 ^ k) <= rmax t).
  { intros k K. rewrite (rmax_signed t SR).
    pose proof (pow2_pos k ltac:(lia)). pose proof (pow2_lt k (rbits t - 1) ltac:(lia)). lia. }
  destruct (Z.geb_spec e 0); cbn [num den]; repeat split; cbn [num den]; try apply abs_fits; auto; apply K; lia.
Qed.

Lemma fields_unfold : forall p t mb eb s m e, signed_rep t -> 0 < mb <= rbits t - 2 -> rbits t <= 2 ^ 31 ->
  0 <= m < 2 ^ mb -> 0 <= e < 2 ^ eb - 1 ->
  of_fields p t mb eb s m e =
    (do x <- f_arith p t t Plus (IR 1 (mkRaw m (2 ^ mb)));
     do y <- f_arith p t t Multiplies (IR (sgn s) x);
     do w <- f_pow2 t (e - (2 ^ (eb - 1) - 1));
     f_arith p t t Multiplies (RR y w)).
Proof.
  intros p t mb eb s m e SR M B Hm He. pose proof SR as [W S]. unfold of_fields.
  destruct (Z.eqb_spec e (2 ^ eb - 1)); [lia|]. cbn [andb].
  pose proof (rmax_big t W). pose proof (rmax_signed t SR) as RM.
  pose proof (pow2_lt mb (rbits t - 1) ltac:(lia)).
  assert (NEG : m_neg t 1 = Ok (-1)).
  { unfold m_neg, arith. cbn [Z.opp]. rewrite (abs_fits t (-1)) by (auto; lia).
    destruct (rsigned t); [reflexivity|discriminate]. }
  assert (SG : (if s then m_neg t 1 else Ok 1) = Ok (sgn s)) by (destruct s; auto).
  rewrite SG. cbn [bind]. rewrite mu_pow2_ok by (auto; lia).
  destruct (Z.ltb_spec mb (rbits t)); [|lia]. cbn [bind]. unfold cast.
  rewrite !wrap_id by (auto; apply abs_fits; auto; lia). reflexivity.
Qed.

Lemma mantissa_value : forall o t mb m x, signed_rep t -> 0 < mb <= rbits t - 2 -> 0 <= m < 2 ^ mb ->
  f_arith (denote o) t t Plus (IR 1 (mkRaw m (2 ^ mb))) = Ok x ->
  wf_raw t x /\ same_value (value x) (Some (inject_Z (2 ^ mb + m) / inject_Z (2 ^ mb))%Q).
Proof.
  intros o t mb m x SR M Hm H. pose proof SR as [W S]. rewrite f_arith_self in H.
  pose proof (rmax_big t W). pose proof (rmax_signed t SR) as RM.
  pose proof (pow2_lt mb (rbits t - 1) ltac:(lia)).
  assert (WA : wf_args t (IR 1 (mkRaw m (2 ^ mb)))).
  { split; [apply abs_fits; auto; lia|]. split; apply abs_fits; cbn [num den]; auto; lia. }
  split; [eapply arith_wf; eauto|].
  eapply same_trans; [apply (denote_exact_opt o t Plus _ x W S WA); auto; left; discriminate|].
  cbn [left_value right_value]. rewrite value_defined by (cbn [den]; lia). cbn [exact_opt exact same_value num den].
  rewrite inject_Z_plus. change (inject_Z 1) with 1%Q. field. apply iz_nz. lia.
Qed.

Lemma signed_value : forall o t s x y q, signed_rep t -> wf_raw t x -> same_value (value x) (Some q) ->
  f_arith (denote o) t t Multiplies (IR (sgn s) x) = Ok y ->
  wf_raw t y /\ same_value (value y) (Some (inject_Z (sgn s) * q)%Q).
Proof.
  intros o t s x y q SR WX V H. pose proof SR as [W S]. rewrite f_arith_self in H.
  pose proof (rmax_big t W). pose proof (rmax_signed t SR) as RM.
  assert (WA : wf_args t (IR (sgn s) x)).
  { split; auto. apply abs_fits; auto. destruct s; cbn; lia. }
  split; [eapply arith_wf; eauto|].
  eapply same_trans; [apply (denote_exact_opt o t Multiplies _ y W S WA); auto; left; discriminate|].
  cbn [left_value right_value]. destruct (value x) as [v|]; cbn [same_value] in V; [|contradiction].
  cbn [exact_opt exact same_value]. now rewrite V.
Qed.

Theorem fields_exact : forall o t mb eb s m e r, signed_rep t -> 0 < mb <= rbits t - 2 -> rbits t <= 2 ^ 31 ->
  0 <= m < 2 ^ mb -> 0 <= e < 2 ^ eb - 1 ->
  let E := e - (2 ^ (eb - 1) - 1) in Z.abs E <= rbits t - 2 ->
  of_fields (denote o) t mb eb s m e = Ok r ->
  same_value (value r) (Some (inject_Z (sgn s * (2 ^ mb + m)) * (2 # 1) ^ (E - mb))%Q).
Proof.
  intros o t mb eb s m e r SR M B Hm He E HE H. rewrite fields_unfold in H by auto. fold E in H.
  inv_bind H. pose proof SR as [W S].
  destruct (mantissa_value o t mb m a SR M Hm E0) as [WA VA].
  destruct (signed_value o t s a a0 _ SR WA VA E1) as [WB VB].
  rewrite f_pow2_raw in E2 by auto. inversion E2; subst a1. clear E2.
  pose proof (pow2_raw_bound t E SR HE) as [WW _]. cbn zeta in WW.
  rewrite f_arith_self in H.
  assert (WR : wf_args t (RR a0 (if E >=? 0 then mkRaw (2 ^ E) 1 else mkRaw 1 (2 ^ (- E))))) by (split; auto).
  eapply same_trans; [apply (denote_exact_opt o t Multiplies _ r W S WR); auto; left; discriminate|].
  cbn [left_value right_value]. pose proof (pow2_raw_value E) as VW.
  destruct (value a0) as [va|]; cbn [same_value] in VB; [|contradiction].
  destruct (value (if E >=? 0 then _ else _)) as [vw|]; cbn [same_value] in VW; [|contradiction].
  cbn [exact_opt exact same_value]. rewrite VB, VW, Qpow_sub, inject_Z_mult, (Qpow_Z mb) by lia. field.
  pose proof (Qpow_pos mb). lra.
Qed.

(** Totality, with the sizes of the intermediate results. *)
Lemma plus_one_sized : forall o t r, signed_rep t -> den r <> 0 -> Z.abs (num r) + Z.abs (den r) <= rmax t ->
  exists x, f_arith (denote o) t t Plus (IR 1 r) = Ok x /\
    Z.abs (num x) <= Z.abs (num r) + Z.abs (den r) /\ Z.abs (den x) <= Z.abs (den r).
Proof.
  intros o t r SR. setoid_rewrite f_arith_self. revert r. pose proof SR as [W S]. pose proof (one_abs t W) as O1.
  assert (F : forall r, Z.abs (num r) + Z.abs (den r) <= rmax t ->
    exists x, fast_plus_ri t r 1 = Ok x /\
      Z.abs (num x) <= Z.abs (num r) + Z.abs (den r) /\ Z.abs (den x) <= Z.abs (den r)).
  { intros [a b] H. cbn [num den] in *. unfold fast_plus_ri. cbn [num den]. rewrite smul by (auto; lia). cbn [bind].
    rewrite sadd by (auto; lia). cbn [bind]. eexists; split; [reflexivity|]. cbn [num den]. lia. }
  induction o as [| |o IH m|o IH m]; intros r N H; cbn [denote].
  - now apply F.
  - now apply F.
  - destruct (reduce_args_bound t (IR 1 r) m SR) as [b [E K]].
    { cbn [lraw rraw num den]. lia. }
    rewrite ri_arith_eq, E. cbn [bind]. cbn [reduce_args] in E. inv_bind E. inversion E; subst b.
    cbn [lraw rraw num den] in K. destruct (IH a) as [x [X1 [X2 X3]]]; [tauto|lia|].
    exists x. split; auto. lia.
  - destruct (IH r N H) as [x [X1 [X2 X3]]]. rewrite ro_arith_eq, X1. cbn [bind].
    assert (WR : wf_raw t x) by (split; apply abs_fits; auto; lia).
    destruct (reduce_total t x m) as [s F']; [auto|auto|lia|lia|]. exists s. split; auto.
    apply reduce_spec in F' as [_ [R _]]; auto. apply reduces_bound in R. lia.
Qed.

Lemma times_sign_sized : forall o t z r, signed_rep t -> Z.abs z = 1 -> Z.abs (num r) <= rmax t -> Z.abs (den r) <= rmax t ->
  exists x, f_arith (denote o) t t Multiplies (IR z r) = Ok x /\
    Z.abs (num x) <= Z.abs (num r) /\ Z.abs (den x) <= Z.abs (den r).
Proof.
  intros o t z r SR Z1. setoid_rewrite f_arith_self. revert r. pose proof SR as [W S]. pose proof (one_abs t W) as O1.
  assert (F : forall r, Z.abs (num r) <= rmax t ->
    exists x, fast_multiplies_ri t r z = Ok x /\
      Z.abs (num x) <= Z.abs (num r) /\ Z.abs (den x) <= Z.abs (den r)).
  { intros [a b] H. cbn [num den] in *. unfold fast_multiplies_ri. cbn [num den].
    assert (Z.abs (a * z) = Z.abs a) by (rewrite Z.abs_mul; lia).
    rewrite smul by (auto; lia). cbn [bind]. eexists; split; [reflexivity|]. cbn [num den]. lia. }
  induction o as [| |o IH m|o IH m]; intros r H D; cbn [denote].
  - now apply F.
  - now apply F.
  - destruct (reduce_args_bound t (IR z r) m SR) as [b [E K]].
    { cbn [lraw rraw num den]. lia. }
    rewrite ri_arith_eq, E. cbn [bind]. cbn [reduce_args] in E. inv_bind E. inversion E; subst b.
    cbn [lraw rraw num den] in K. destruct (IH a) as [x [X1 [X2 X3]]]; [lia|lia|].
    exists x. split; auto. lia.
  - destruct (IH r H D) as [x [X1 [X2 X3]]]. rewrite ro_arith_eq, X1. cbn [bind].
    assert (WR : wf_raw t x) by (split; apply abs_fits; auto; lia).
    destruct (reduce_total t x m) as [s F']; [auto|auto|lia|lia|]. exists s. split; auto.
    apply reduce_spec in F' as [_ [R _]]; auto. apply reduces_bound in R. lia.
Qed.

(** The last product: a mantissa no larger than [2^(k+1)-1] over [2^k]. *)
Lemma last_product : forall o t y k E, signed_rep t -> 0 <= k -> k + Z.abs E <= rbits t - 2 ->
  Z.abs (num y) < 2 ^ (k + 1) -> Z.abs (den y) <= 2 ^ k ->
  exists r, f_arith (denote o) t t Multiplies (RR y (if E >=? 0 then mkRaw (2 ^ E) 1 else mkRaw 1 (2 ^ (- E)))) = Ok r /\
    Z.abs (num r) <= rmax t /\ Z.abs (den r) <= rmax t.
Proof.
  intros o t y k E SR K KE N D. rewrite f_arith_self. pose proof SR as [W S].
  pose proof (rmax_signed t SR) as RM. pose proof (one_abs t W) as O1.
  pose proof (pow2_pos k K).
  assert (P1 : 2 ^ (k + 1) <= rmax t + 1) by (rewrite RM; pose proof (pow2_le (k + 1) (rbits t - 1) ltac:(lia)); lia).
  assert (P2 : 2 ^ k <= rmax t) by (rewrite RM; pose proof (pow2_lt k (rbits t - 1) ltac:(lia)); lia).
  edestruct denote_tight as [r R]; [exact SR| |exists r; exact R].
  assert (Q : 0 <= Z.abs E) by lia. cbn [lraw rraw].
  destruct (Z.geb_spec E 0); cbn [num den]; unfold products_fit; cbn [num den].
  - pose proof (pow2_pos E ltac:(lia)).
    pose proof (Z.pow_add_r 2 (k + 1) E ltac:(lia) ltac:(lia)) as PA.
    pose proof (pow2_le (k + 1 + E) (rbits t - 1) ltac:(lia)).
    pose proof (pow2_lt E (rbits t - 1) ltac:(lia)).
    rewrite Z.abs_mul, (Z.abs_eq (2 ^ E)) by lia. rewrite !Z.mul_1_r. repeat split; try lia.
    rewrite RM. assert (Z.abs (num y) * 2 ^ E <= (2 ^ (k + 1) - 1) * 2 ^ E) by (apply Z.mul_le_mono_nonneg_r; lia). lia.
  - pose proof (pow2_pos (- E) ltac:(lia)).
    pose proof (Z.pow_add_r 2 k (- E) ltac:(lia) ltac:(lia)) as PA.
    pose proof (pow2_lt (k + - E) (rbits t - 1) ltac:(lia)).
    pose proof (pow2_lt (- E) (rbits t - 1) ltac:(lia)).
    rewrite Z.abs_mul, (Z.abs_mul (den y)), (Z.abs_eq (2 ^ (- E))) by lia. rewrite !Z.mul_1_r. repeat split; try lia.
    assert (Z.abs (den y) * 2 ^ (- E) <= 2 ^ k * 2 ^ (- E)) by (apply Z.mul_le_mono_nonneg_r; lia). lia.
Qed.

Theorem fields_total : forall o t mb eb s m e, signed_rep t -> 0 < mb <= rbits t - 2 -> rbits t <= 2 ^ 31 ->
  0 <= m < 2 ^ mb -> 0 <= e < 2 ^ eb - 1 ->
  let E := e - (2 ^ (eb - 1) - 1) in mb + Z.abs E <= rbits t - 2 ->
  exists r, of_fields (denote o) t mb eb s m e = Ok r /\ Z.abs (num r) <= rmax t /\ Z.abs (den r) <= rmax t.
Proof.
  intros o t mb eb s m e SR M B Hm He E HE. rewrite fields_unfold by auto. fold E. pose proof SR as [W S].
  pose proof (rmax_signed t SR) as RM.
  pose proof (pow2_le (mb + 1) (rbits t - 1) ltac:(lia)). rewrite Z.pow_add_r in H by lia. change (2 ^ 1) with 2 in H.
  destruct (plus_one_sized o t (mkRaw m (2 ^ mb)) SR) as [x [X1 [X2 X3]]]; cbn [num den] in *; [lia|lia|].
  destruct (times_sign_sized o t (sgn s) x SR) as [y [Y1 [Y2 Y3]]]; [destruct s; reflexivity|lia|lia|].
  rewrite X1; cbn [bind]. rewrite Y1; cbn [bind]. rewrite f_pow2_raw by (auto; lia). cbn [bind].
  apply (last_product o t y mb E SR); try lia. rewrite Z.pow_add_r by lia. change (2 ^ 1) with 2. lia.
Qed.

(** A canonical fraction has the smallest parts of its value. *)
Lemma canonical_least : forall x n k, canonical x -> 0 < k -> 
  same_value (value x) (Some (inject_Z n / inject_Z k)%Q) -> Z.abs (num x) <= Z.abs n /\ Z.abs (den x) <= Z.abs k.
Proof.
  intros x n k C K V. destruct (Z.eq_dec (den x) 0) as [D|D].
  { apply value_none_iff in D. rewrite D in V. contradiction. }
  rewrite value_defined in V by auto. cbn [same_value] in V. rewrite qdiv_eq in V by lia.
  destruct C as [[_ C]|C]; [contradiction|]. destruct C as [C1 C2].
  assert (G : (den x | k)).
  { apply (Z.gauss _ (num x)); [|rewrite Z.gcd_comm; auto]. exists n. rewrite V. ring. }
  destruct G as [g G]. subst k.
  assert (n = num x * g) by (apply (Z.mul_reg_r _ _ (den x)); [auto|rewrite <- V; ring]). subst n.
  assert (0 < g) by (clear - K C1; nia). rewrite !Z.abs_mul. clear - H; nia.
Qed.

Theorem fields_total_canonical : forall o t mb eb s m e n k, output_canonical o = true ->
  signed_rep t -> 0 < mb <= rbits t - 2 -> rbits t <= 2 ^ 31 ->
  0 <= m < 2 ^ mb -> 0 <= e < 2 ^ eb - 1 ->
  let E := e - (2 ^ (eb - 1) - 1) in
  0 <= k -> 0 <= n < 2 ^ (k + 1) -> (2 ^ mb + m) * 2 ^ k = n * 2 ^ mb ->
  k + Z.abs E <= rbits t - 2 ->
  exists r, of_fields (denote o) t mb eb s m e = Ok r /\ Z.abs (num r) <= rmax t /\ Z.abs (den r) <= rmax t.
Proof.
  intros o t mb eb s m e n k C SR M B Hm He E K N V HE. rewrite fields_unfold by auto. fold E. pose proof SR as [W S].
  pose proof (rmax_signed t SR) as RM. pose proof (pow2_pos k K) as PK. pose proof (pow2_pos mb ltac:(lia)) as PM.
  pose proof (pow2_le (mb + 1) (rbits t - 1) ltac:(lia)) as LM. rewrite Z.pow_add_r in LM by lia. change (2 ^ 1) with 2 in LM.
  pose proof (pow2_le (k + 1) (rbits t - 1) ltac:(lia)) as LK. rewrite Z.pow_add_r in LK, N by lia. change (2 ^ 1) with 2 in LK, N.
  destruct (plus_one_sized o t (mkRaw m (2 ^ mb)) SR) as [x [X1 [X2 X3]]]; cbn [num den] in *; [lia|lia|].
  destruct (mantissa_value o t mb m x SR M Hm X1) as [WX VX].
  assert (CX : canonical x).
  { rewrite f_arith_self in X1. apply (denote_canonical o t _ _ x W) in X1; auto.
    split; [apply abs_fits; auto; lia|]. split; apply abs_fits; cbn [num den]; auto; lia. }
  assert (L : Z.abs (num x) <= Z.abs n /\ Z.abs (den x) <= Z.abs (2 ^ k)).
  { apply canonical_least; auto. eapply same_trans; [exact VX|]. cbn [same_value]. apply qdiv_eq; lia. }
  destruct (times_sign_sized o t (sgn s) x SR) as [y [Y1 [Y2 Y3]]]; [destruct s; reflexivity|lia|lia|].
  rewrite X1; cbn [bind]. rewrite Y1; cbn [bind]. rewrite f_pow2_raw by (auto; lia). cbn [bind].
  apply (last_product o t y k E SR); try lia. rewrite Z.pow_add_r by lia. change (2 ^ 1) with 2. lia.
Qed.

(** The magnitude of a product by a power of two. *)
Lemma Qpow_lt_inv : forall a b, ((2 # 1) ^ a < (2 # 1) ^ b)%Q -> a < b.
Proof.
  intros a b H. destruct (Z.lt_ge_cases a b) as [L|L]; auto. exfalso.
  assert (G : ((2 # 1) ^ b <= (2 # 1) ^ a)%Q).
  { replace a with (b + (a - b)) by ring. rewrite Qpow_add. pose proof (Qpow_pos b).
    rewrite <- (Qpow_Z (a - b)) by lia. pose proof (pow2_pos (a - b) ltac:(lia)).
    assert (1 <= inject_Z (2 ^ (a - b)))%Q by (change 1%Q with (inject_Z 1); rewrite <- Zle_Qle; lia).
    rewrite <- (Qmult_1_r ((2 # 1) ^ b)) at 1. rewrite Qmult_comm, (Qmult_comm ((2 # 1) ^ b)). apply Qmult_le_compat_r; lra. }
  lra.
Qed.

Lemma Qcross : forall a b pm pk pe, (0 < pm -> 0 < pk -> 0 < pe -> a * (pe / pm) == b * (pe / pk) -> a * pk == b * pm)%Q.
Proof.
  intros a b pm pk pe M K E Q. transitivity (a * (pe / pm) * (pm * pk / pe))%Q; [field; lra|].
  rewrite Q. field; lra.
Qed.

Lemma wrap_half : forall t, signed_rep t -> wrap t (2 ^ (rbits t - 1)) = - 2 ^ (rbits t - 1).
Proof.
  intros t [W S]. unfold wf_rep in W. unfold wrap. rewrite S.
  replace (2 ^ (rbits t - 1) + 2 ^ (rbits t - 1)) with (1 * 2 ^ rbits t).
  - rewrite Z.mod_mul by (pose proof (pow2_pos (rbits t)); lia). lia.
  - replace (rbits t) with (1 + (rbits t - 1)) at 1 by ring. rewrite Z.pow_add_r by lia. change (2 ^ 1) with 2. ring.
Qed.

Lemma scaled_between : forall n k e, 0 <= k -> 2 ^ k <= n < 2 ^ (k + 1) ->
  ((2 # 1) ^ (k + e) <= inject_Z n * (2 # 1) ^ e /\ inject_Z n * (2 # 1) ^ e < (2 # 1) ^ (k + e + 1))%Q.
Proof.
  intros n k e K H. pose proof (Qpow_pos e). replace (k + e + 1) with (k + 1 + e) by ring.
  rewrite !(Qpow_add _ e), <- (Qpow_Z k), <- (Qpow_Z (k + 1)) by lia. split.
  - apply Qmult_le_compat_r; [|lra]. rewrite <- Zle_Qle. lia.
  - apply Qmult_lt_compat_r; auto. rewrite <- Zlt_Qlt. lia.
Qed.

Lemma Qabs_finite : forall (s : bool) m e, (Qabs (inject_Z (if s then Zneg m else Zpos m) * (2 # 1) ^ e) == inject_Z (Zpos m) * (2 # 1) ^ e)%Q.
Proof.
  intros s m e. rewrite Qabs_Qmult. rewrite (Qabs_pos ((2 # 1) ^ e)) by (pose proof (Qpow_pos e); lra).
  apply Qmult_comp; [|reflexivity]. destruct s; reflexivity.
Qed.

(** The exponent just beyond the range, where the power of two is the minimum
    value: never defined. *)
Lemma reduce_ok_fits : forall t v m r, wf_rep t -> den v <> 0 -> reduce t v m = Ok r ->
  Z.abs (num v) <= rmax t /\ Z.abs (den v) <= rmax t.
Proof.
  intros t v m r W D H.
  assert (I : exists r', reduce_ignore_signs t v = Ok r').
  { destruct m; cbn [reduce] in H; [unfold reduce_normalize_signs in H; inv_bind H|]; eauto. }
  destruct I as [r' I]. unfold reduce_ignore_signs in I.
  destruct (is_undefined v) eqn:U; [apply is_undefined_iff in U; contradiction|].
  inv_bind I. apply std_gcd_ok in E as [_ [A1 A2]]. split; now apply abs_in_rep_iff.
Qed.

Lemma pow2_divides : forall a, 0 <= a -> forall b n d, 0 <= b -> 0 < n < 2 ^ (a + 1) -> d <> 0 ->
  (2 ^ (a + b) | n * d) -> 2 ^ b <= Z.abs d.
Proof.
  intros a A. pattern a. apply natlike_ind; auto; clear a A.
  - intros b n d B N D H. change (2 ^ (0 + 1)) with 2 in N. replace n with 1 in H by lia.
    rewrite Z.mul_1_l in H. cbn [Z.add] in H. apply Z.divide_abs_r in H. apply Z.divide_pos_le in H; lia.
  - intros a A IH b n d B N D H.
    destruct (Zeven.Zeven_odd_dec n) as [E|O].
    + apply Zeven.Zeven_ex in E as [k E]. subst n. apply (IH b k d); auto.
      * replace (Z.succ a + 1) with (Z.succ (a + 1)) in N by lia. rewrite Z.pow_succ_r in N by lia. lia.
      * replace (Z.succ a + b) with (Z.succ (a + b)) in H by lia. rewrite Z.pow_succ_r in H by lia.
        destruct H as [c H]. exists c. apply (Z.mul_reg_l _ _ 2); [lia|].
        rewrite Z.mul_assoc, H. ring.
    + assert (G : (2 ^ (Z.succ a + b) | d)).
      { apply (Z.gauss _ n); auto. apply Zeven.Zodd_ex in O as [k O]. subst n.
        apply Zgcd_1_rel_prime. apply rel_prime_sym, rel_prime_Zpower_r; [lia|].
        apply Zgcd_1_rel_prime. apply Z.bezout_1_gcd. exists 1, (- k). ring. }
      apply Z.divide_abs_r in G. apply Z.divide_pos_le in G; [|lia].
      pose proof (pow2_le b (Z.succ a + b) ltac:(lia)). lia.
Qed.

Lemma edge_product : forall t n mb y w r, signed_rep t -> 0 <= mb -> 2 ^ mb <= n < 2 ^ (mb + 1) ->
  wf_raw t r -> den r <> 0 ->
  Z.abs (num y) * 2 ^ mb = n * Z.abs (den y) -> den y <> 0 ->
  (w = mkRaw (- 2 ^ (rbits t - 1)) 1 \/ w = mkRaw 1 (- 2 ^ (rbits t - 1))) ->
  num r * (den y * den w) = num y * num w * den r ->
  ~ (Z.abs (num r) <= rmax t /\ Z.abs (den r) <= rmax t).
Proof.
  intros t n mb y w r SR MB N [WN WD] DR Y DY HW E [B1 B2]. pose proof SR as [W S]. unfold wf_rep in W.
  rewrite (rmax_signed t SR) in *. set (P := 2 ^ (rbits t - 1)) in *.
  assert (PP : 0 < P) by (apply pow2_pos; lia). pose proof (pow2_pos mb MB) as PM.
  apply (f_equal Z.abs) in E. rewrite !Z.abs_mul in E.
  assert (AD : 0 < Z.abs (den y)) by lia.
  destruct HW as [-> | ->]; cbn [num den] in E; rewrite Z.abs_opp, (Z.abs_eq P) in E by lia; change (Z.abs 1) with 1 in E.
  - assert (F : Z.abs (num r) * 2 ^ mb = n * P * Z.abs (den r)).
    { apply (Z.mul_reg_r _ _ (Z.abs (den y))); [lia|]. 
      transitivity (Z.abs (num r) * (Z.abs (den y) * 1) * 2 ^ mb); [ring|]. rewrite E.
      transitivity (Z.abs (num y) * 2 ^ mb * P * Z.abs (den r)); [ring|]. rewrite Y. ring. }
    assert (G : 2 ^ mb * P <= n * P) by (apply Z.mul_le_mono_nonneg_r; lia).
    assert (1 <= Z.abs (den r)) by lia.
    assert (n * P * 1 <= n * P * Z.abs (den r)) by (apply Z.mul_le_mono_nonneg_l; lia).
    assert (Z.abs (num r) * 2 ^ mb <= (P - 1) * 2 ^ mb) by (apply Z.mul_le_mono_nonneg_r; lia). lia.
  - assert (F : Z.abs (num r) * P * 2 ^ mb = n * Z.abs (den r)).
    { apply (Z.mul_reg_r _ _ (Z.abs (den y))); [lia|].
      transitivity (Z.abs (num r) * (Z.abs (den y) * P) * 2 ^ mb); [ring|]. rewrite E.
      transitivity (Z.abs (num y) * 2 ^ mb * Z.abs (den r)); [ring|]. rewrite Y. ring. }
    assert (G : P <= Z.abs (Z.abs (den r))).
    { apply (pow2_divides mb MB (rbits t - 1) n); try lia. exists (Z.abs (num r)). rewrite <- F.
      rewrite Z.pow_add_r by lia. fold P. ring. }
    rewrite Z.abs_involutive in G. lia.
Qed.

Lemma edge_last : forall o t n mb y w r, signed_rep t -> 0 < mb -> 2 ^ mb <= n < 2 ^ (mb + 1) ->
  wf_raw t y -> Z.abs (num y) * 2 ^ mb = n * Z.abs (den y) -> den y <> 0 ->
  (o = Safe \/ o = Fast -> Z.abs (num y) = n /\ den y = 2 ^ mb) ->
  (w = mkRaw (- 2 ^ (rbits t - 1)) 1 \/ w = mkRaw 1 (- 2 ^ (rbits t - 1))) ->
  p_arith (denote o) t Multiplies (RR y w) <> Ok r.
Proof.
  intros o t n mb y w r SR MB N WY Y DY SF HW H. pose proof SR as [W S]. pose proof W as W'. unfold wf_rep in W'.
  pose proof (rmax_signed t SR) as RM. pose proof (pow2_pos (rbits t - 1) ltac:(lia)) as PP.
  pose proof (pow2_le 1 mb ltac:(lia)) as P2. change (2 ^ 1) with 2 in P2.
  assert (DW : den w <> 0) by (destruct HW as [-> | ->]; cbn [den]; lia).
  assert (MU : forall a, m_mul t a (- 2 ^ (rbits t - 1)) <> Ok 0 -> 2 <= Z.abs a -> forall c, m_mul t a (- 2 ^ (rbits t - 1)) <> Ok c).
  { intros a _ A c M. unfold m_mul, arith in M. rewrite S in M. destruct (in_rep t _) eqn:I; [|discriminate].
    apply in_rep_iff in I. unfold rmin in I. rewrite S, RM in I. nia. }
  assert (BASE : Z.abs (num y) = n /\ den y = 2 ^ mb -> forall c, fast_multiplies_rr t y w <> Ok c).
  { intros [A B] c M. unfold fast_multiplies_rr in M. inv_bind M. destruct HW as [-> | ->]; cbn [num den] in *.
    - revert E. apply MU; [|lia]. unfold m_mul, arith. rewrite S. destruct (in_rep t _); [|discriminate].
      intros X. injection X. nia.
    - revert E0. rewrite B. apply MU; [|lia]. unfold m_mul, arith. rewrite S. destruct (in_rep t _); [|discriminate].
      intros X. injection X. nia. }
  destruct o as [| |o m|o m]; cbn [denote] in H.
  - apply (BASE (SF (or_introl eq_refl)) r). exact H.
  - apply (BASE (SF (or_intror eq_refl)) r). exact H.
  - rewrite ri_arith_eq in H. cbn [reduce_args] in H. inv_bind H. inv_bind E.
    apply reduce_ok_fits in E1; auto. destruct HW as [-> | ->]; cbn [num den] in E1; lia.
  - rewrite ro_arith_eq in H. inv_bind H.
    assert (WW : wf_raw t w).
    { assert (I : in_rep t (- 2 ^ (rbits t - 1)) = true) by (apply in_rep_iff; unfold rmin; rewrite S, RM; lia).
      pose proof (abs_fits t 1 SR (one_abs t W)). destruct HW as [-> | ->]; split; auto. }
    assert (WA : wf_args t (RR y w)) by (split; auto).
    pose proof (arith_wf o t _ _ a W WA E) as WR.
    pose proof (denote_exact_opt o t Multiplies _ a W S WA ltac:(left; discriminate) E) as V.
    cbn [left_value right_value] in V. rewrite !(value_defined y), !(value_defined w) in V by auto.
    cbn [exact_opt exact] in V.
    destruct (Z.eq_dec (den a) 0) as [D|D].
    { apply value_none_iff in D. rewrite D in V. contradiction. }
    rewrite (value_defined a) in V by auto. cbn [same_value] in V.
    apply reduce_ok_fits in H; auto. revert H.
    apply (edge_product t n mb y w a); auto; try lia.
    assert (V' : (inject_Z (num a) / inject_Z (den a) == inject_Z (num y * num w) / inject_Z (den y * den w))%Q).
    { rewrite V, !inject_Z_mult. field. split; now apply iz_nz. }
    rewrite qdiv_eq in V'; auto. intros X. apply Z.mul_eq_0 in X. tauto.
Qed.

Lemma arith_signed : forall t v c, rsigned t = true -> arith t v = Ok c -> c = v.
Proof. intros t v c S H. unfold arith in H. rewrite S in H. destruct (in_rep t v); [now injection H|discriminate]. Qed.

Lemma base_mantissa : forall o t mb m x, o = Safe \/ o = Fast -> rsigned t = true ->
  f_arith (denote o) t t Plus (IR 1 (mkRaw m (2 ^ mb))) = Ok x -> x = mkRaw (m + 2 ^ mb) (2 ^ mb).
Proof.
  intros o t mb m x O S H. rewrite f_arith_self in H.
  assert (F : fast_plus_ri t (mkRaw m (2 ^ mb)) 1 = Ok x) by (destruct O; subst o; exact H).
  unfold fast_plus_ri in F. cbn [num den] in F. inv_bind F. apply (arith_signed t _ _ S) in E. apply (arith_signed t _ _ S) in E0.
  subst. assert (X : mkRaw (m + 1 * 2 ^ mb) (2 ^ mb) = x) by congruence. rewrite <- X. f_equal. ring.
Qed.
Lemma base_signed : forall o t s v x, o = Safe \/ o = Fast -> rsigned t = true ->
  f_arith (denote o) t t Multiplies (IR (sgn s) v) = Ok x -> x = mkRaw (num v * sgn s) (den v).
Proof.
  intros o t s v x O S H. rewrite f_arith_self in H.
  assert (F : fast_multiplies_ri t v (sgn s) = Ok x) by (destruct O; subst o; exact H).
  unfold fast_multiplies_ri in F. inv_bind F. apply (arith_signed t _ _ S) in E. subst. now injection F as <-.
Qed.

Theorem fields_edge : forall o t mb eb s m e r, signed_rep t -> 0 < mb <= rbits t - 2 -> rbits t <= 2 ^ 31 ->
  0 <= m < 2 ^ mb -> 0 <= e < 2 ^ eb - 1 -> Z.abs (e - (2 ^ (eb - 1) - 1)) = rbits t - 1 ->
  of_fields (denote o) t mb eb s m e <> Ok r.
Proof.
  intros o t mb eb s m e r SR M B Hm He X H. rewrite fields_unfold in H by auto. set (E := e - (2 ^ (eb - 1) - 1)) in *.
  inv_bind H. pose proof SR as [W S].
  destruct (mantissa_value o t mb m a SR M Hm E0) as [WA VA].
  destruct (signed_value o t s a a0 _ SR WA VA E1) as [WB VB].
  pose proof (pow2_pos mb ltac:(lia)) as PM.
  assert (DB : den a0 <> 0).
  { intros D. apply value_none_iff in D. rewrite D in VB. contradiction. }
  rewrite f_arith_self in H. revert H.
  apply (edge_last o t (2 ^ mb + m) mb a0 a1 r SR); auto; try lia.
  - rewrite Z.pow_add_r by lia. change (2 ^ 1) with 2. lia.
  - rewrite (value_defined a0) in VB by auto. cbn [same_value] in VB.
    assert (V : (inject_Z (num a0) / inject_Z (den a0) == inject_Z (sgn s * (2 ^ mb + m)) / inject_Z (2 ^ mb))%Q).
    { rewrite VB, inject_Z_mult. field. apply iz_nz. lia. }
    rewrite qdiv_eq in V by lia. apply (f_equal Z.abs) in V. rewrite !Z.abs_mul in V.
    rewrite (Z.abs_eq (2 ^ mb)), (Z.abs_eq (2 ^ mb + m)) in V by lia.
    replace (Z.abs (sgn s)) with 1 in V by (destruct s; reflexivity). rewrite V. ring.
  - intros O. apply (base_mantissa o t mb m a O S) in E0. apply (base_signed o t s a a0 O S) in E1. subst a a0.
    cbn [num den]. rewrite Z.abs_mul. replace (Z.abs (sgn s)) with 1 by (destruct s; reflexivity). split; lia.
  - rewrite f_pow2_eq in E2 by (auto; lia). destruct (Z.ltb_spec (Z.abs E) (rbits t)); [|lia].
    assert (WP : wrap t (2 ^ (rbits t - 1)) = - 2 ^ (rbits t - 1)) by (now apply wrap_half).
    injection E2 as <-. destruct (Z.geb_spec E 0).
    + left. f_equal. rewrite <- WP. do 2 f_equal. lia.
    + right. f_equal. rewrite <- WP. do 2 f_equal. lia.
Qed.

Section Format.
Variables mw ew : Z.
Hypothesis Hmw : 0 < mw.
Hypothesis Hew : 0 < ew.
Hypothesis Hew1 : 1 < ew <= 30.
Let prec := mw + 1.
Let emax := 2 ^ (ew - 1).
Hypothesis Hmax : mw + 1 < emax.

Let float := binary_float prec emax.
Let bits := bits_of_binary_float mw ew.

Lemma emax_2 : 2 ^ ew = 2 * emax.
Proof. unfold emax. rewrite <- Z.pow_succ_r by lia. f_equal. lia. Qed.

Lemma of_float_fields : forall p t n (x : float), wf_rep t -> 8 * Z.of_nat n = mw + ew + 1 ->
  floating_point_to_fraction p t little n mw ew (bits x) =
  let '(s, m, e) := split_bits_of_binary_float mw ew x in of_fields p t mw ew s m e.
Proof.
  intros p t n x W N. rewrite fields_eq; auto.
  - unfold bits. rewrite (split_bits_of_binary_float_correct mw ew Hmw Hew). reflexivity.
  - unfold bits. pose proof (bits_of_binary_float_range mw ew Hmw Hew x). lia.
Qed.

(** A finite number is normal or below the normal numbers. *)
Lemma finite_cases : forall (s : bool) mx ex (H : SpecFloat.bounded prec emax mx ex = true),
  (2 ^ mw <= Zpos mx < 2 ^ (mw + 1) /\ 3 - emax - prec <= ex <= emax - prec) \/
  (Zpos mx < 2 ^ mw /\ ex = 3 - emax - prec).
Proof.
  intros s mx ex H. apply andb_prop in H as [H1 H2]. apply Zle_bool_imp_le in H2. unfold SpecFloat.canonical_mantissa in H1.
  apply Zeq_bool_eq in H1. rewrite Digits.Zpos_digits2_pos in H1. unfold SpecFloat.fexp, SpecFloat.emin in H1.
  destruct (Z.le_gt_cases (2 ^ mw) (Zpos mx)) as [G|G].
  - left. pose proof (Digits.Zdigits_gt_Zpower Zaux.radix2 mw (Zpos mx)) as D. cbn [Zaux.radix_val Zaux.radix2] in D.
    change (Z.abs (Zpos mx)) with (Zpos mx) in D. specialize (D G).
    pose proof (Digits.Zpower_gt_Zdigits Zaux.radix2 (mw + 1) (Zpos mx)) as U. cbn [Zaux.radix_val Zaux.radix2] in U.
    change (Z.abs (Zpos mx)) with (Zpos mx) in U. unfold prec in *.
    split; [split; [auto|apply U; lia]|lia].
  - right. pose proof (Digits.Zdigits_le_Zpower Zaux.radix2 mw (Zpos mx)) as D. cbn [Zaux.radix_val Zaux.radix2] in D.
    change (Z.abs (Zpos mx)) with (Zpos mx) in D. specialize (D G). unfold prec in *. split; [auto|lia].
Qed.

(** The fields of a number no smaller than the least normal number. *)
Lemma normal_fields : forall (x : float) q, float_value x = Some q -> ((2 # 1) ^ (2 - emax) <= Qabs q)%Q ->
  exists s m e, split_bits_of_binary_float mw ew x = (s, m, e) /\
    0 <= m < 2 ^ mw /\ 0 < e < 2 ^ ew - 1 /\
    let E := e - (2 ^ (ew - 1) - 1) in
    (q == inject_Z (sgn s * (2 ^ mw + m)) * (2 # 1) ^ (E - mw))%Q /\
    (Qabs q == inject_Z (2 ^ mw + m) * (2 # 1) ^ (E - mw))%Q /\
    ((2 # 1) ^ E <= Qabs q)%Q /\ (Qabs q < (2 # 1) ^ (E + 1))%Q.
Proof.
  intros [sx|sx|sx pl HP|sx mx ex HB] q V N; cbn [float_value] in V; try discriminate; apply some_inj in V; subst q.
  { exfalso. pose proof (Qpow_pos (2 - emax)). change (Qabs 0) with 0%Q in N. lra. }
  pose proof emax_2 as E2.
  destruct (finite_cases sx mx ex HB) as [[M X]|[M X]].
  - exists sx, (Zpos mx - 2 ^ mw), (ex - (3 - emax - prec) + 1). cbn [split_bits_of_binary_float].
    fold emax prec. change (SpecFloat.emin prec emax) with (3 - emax - prec).
    change Zle_bool with Z.leb. destruct (Z.leb_spec 0 (Zpos mx - 2 ^ mw)); [|lia].
    split; [reflexivity|]. rewrite Z.pow_add_r in M by lia. change (2 ^ 1) with 2 in M.
    split; [lia|]. split; [lia|]. cbn zeta.
    replace (ex - (3 - emax - prec) + 1 - (emax - 1) - mw) with ex by (unfold prec; ring).
    replace (ex - (3 - emax - prec) + 1 - (emax - 1)) with (mw + ex) by (unfold prec; ring).
    replace (2 ^ mw + (Zpos mx - 2 ^ mw)) with (Zpos mx) by ring.
    rewrite !Qabs_finite. split; [destruct sx; reflexivity|]. split; [reflexivity|].
    apply scaled_between; [lia|]. rewrite Z.pow_add_r by lia. change (2 ^ 1) with 2. lia.
  - exfalso. rewrite Qabs_finite in N. pose proof (Qpow_pos ex).
    assert (inject_Z (Zpos mx) * (2 # 1) ^ ex < (2 # 1) ^ (2 - emax))%Q; [|lra].
    replace (2 - emax) with (mw + ex) by (unfold prec in X; lia). rewrite Qpow_add, <- (Qpow_Z mw) by lia.
    apply Qmult_lt_compat_r; auto. rewrite <- Zlt_Qlt. lia.
Qed.

Theorem of_float_exact : forall o t n (x : float) q r, signed_rep t -> 8 * Z.of_nat n = mw + ew + 1 ->
  mw + 2 <= rbits t <= 2 ^ 31 -> float_value x = Some q ->
  between (Z.max (2 - emax) (2 - rbits t)) (rbits t - 1) q ->
  floating_point_to_fraction (denote o) t little n mw ew (bits x) = Ok r ->
  same_value (value r) (Some q).
Proof.
  intros o t n x q r SR N B V [L U] H. pose proof SR as [W S]. rewrite of_float_fields in H by auto.
  assert (mono : forall a b, a <= b -> ((2 # 1) ^ a <= (2 # 1) ^ b)%Q).
  { intros a b AB. apply Qnot_lt_le. intros X. apply Qpow_lt_inv in X. lia. }
  destruct (normal_fields x q V) as [s [m [e [F [M [E [V1 [V2 [V3 V4]]]]]]]]].
  { eapply Qle_trans; [|exact L]. apply mono. lia. }
  rewrite F in H. set (X := e - (2 ^ (ew - 1) - 1)) in *.
  assert (X < rbits t - 1) by (apply Qpow_lt_inv; lra).
  assert (2 - rbits t < X + 1).
  { apply Qpow_lt_inv. pose proof (mono (2 - rbits t) (Z.max (2 - emax) (2 - rbits t)) ltac:(lia)). lra. }
  eapply same_trans; [apply (fields_exact o t mw ew s m e r SR); auto; fold X; lia|].
  fold X. cbn [same_value]. now rewrite V1.
Qed.

Theorem of_float_total : forall o t n (x : float) q, signed_rep t -> 8 * Z.of_nat n = mw + ew + 1 ->
  mw + 2 <= rbits t <= 2 ^ 31 -> float_value x = Some q ->
  between (Z.max (2 - emax) (mw + 2 - rbits t)) (rbits t - mw - 1) q ->
  exists r, floating_point_to_fraction (denote o) t little n mw ew (bits x) = Ok r /\ same_value (value r) (Some q) /\
    Z.abs (num r) <= rmax t /\ Z.abs (den r) <= rmax t.
Proof.
  intros o t n x q SR N B V [L U]. pose proof SR as [W S].
  assert (mono : forall a b, a <= b -> ((2 # 1) ^ a <= (2 # 1) ^ b)%Q).
  { intros a b AB. apply Qnot_lt_le. intros X. apply Qpow_lt_inv in X. lia. }
  destruct (normal_fields x q V) as [s [m [e [F [M [E [V1 [V2 [V3 V4]]]]]]]]].
  { eapply Qle_trans; [|exact L]. apply mono. lia. }
  set (X := e - (2 ^ (ew - 1) - 1)) in *.
  assert (X < rbits t - mw - 1) by (apply Qpow_lt_inv; lra).
  assert (mw + 2 - rbits t < X + 1).
  { apply Qpow_lt_inv. pose proof (mono (mw + 2 - rbits t) (Z.max (2 - emax) (mw + 2 - rbits t)) ltac:(lia)). lra. }
  destruct (fields_total o t mw ew s m e SR) as [r [R RB]]; auto; [lia|lia|lia|fold X; lia|].
  exists r. assert (R' : floating_point_to_fraction (denote o) t little n mw ew (bits x) = Ok r).
  { rewrite of_float_fields by auto. now rewrite F. }
  split; auto. split; [|exact RB]. apply (of_float_exact o t n x q r); auto. split.
  - eapply Qle_trans; [|exact L]. apply mono. lia.
  - eapply Qlt_le_trans; [exact U|]. apply mono. lia.
Qed.

Theorem of_float_significant : forall o t n (x : float) q k E, output_canonical o = true -> signed_rep t ->
  8 * Z.of_nat n = mw + ew + 1 -> mw + 2 <= rbits t <= 2 ^ 31 -> float_value x = Some q ->
  significant k E q -> 2 - emax <= E -> k + Z.abs E <= rbits t - 2 ->
  exists r, floating_point_to_fraction (denote o) t little n mw ew (bits x) = Ok r /\ same_value (value r) (Some q) /\
    Z.abs (num r) <= rmax t /\ Z.abs (den r) <= rmax t.
Proof.
  intros o t n x q k E C SR N B V [i [[K I] Q]] L KE. pose proof SR as [W S].
  assert (mono : forall a b, a <= b -> ((2 # 1) ^ a <= (2 # 1) ^ b)%Q).
  { intros a b AB. apply Qnot_lt_le. intros X. apply Qpow_lt_inv in X. lia. }
  destruct (scaled_between i k (E - k) K I) as [I1 I2]. rewrite <- Q in I1, I2.
  replace (k + (E - k)) with E in * by ring.
  destruct (normal_fields x q V) as [s [m [e [F [M [Ee [V1 [V2 [V3 V4]]]]]]]]].
  { eapply Qle_trans; [|exact I1]. apply mono. lia. }
  set (X := e - (2 ^ (ew - 1) - 1)) in *.
  assert (X < E + 1) by (apply Qpow_lt_inv; lra). assert (E < X + 1) by (apply Qpow_lt_inv; lra).
  assert (X = E) by lia.
  assert (EQ : (2 ^ mw + m) * 2 ^ k = i * 2 ^ mw).
  { rewrite V2 in Q. rewrite H1, !Qpow_sub in Q. pose proof (Qpow_pos E). pose proof (Qpow_pos mw). pose proof (Qpow_pos k).
    apply inject_Z_injective. rewrite !inject_Z_mult, !(Qpow_Z mw), !(Qpow_Z k) by lia.
    now apply (Qcross _ _ _ _ ((2 # 1) ^ E)). }
  destruct (fields_total_canonical o t mw ew s m e i k C SR) as [r [R RB]]; auto; [lia|lia|lia| |fold X; lia|].
  { pose proof (pow2_pos k K). lia. }
  exists r. assert (R' : floating_point_to_fraction (denote o) t little n mw ew (bits x) = Ok r).
  { rewrite of_float_fields by auto. now rewrite F. }
  split; auto. split; [|exact RB]. apply (of_float_exact o t n x q r); auto. split.
  - eapply Qle_trans; [|exact I1]. apply mono. lia.
  - eapply Qlt_le_trans; [exact I2|]. apply mono. lia.
Qed.

(** NaN, infinities, zeros and subnormal numbers. *)
Theorem of_float_nan : forall p t n (x : float), wf_rep t -> 8 * Z.of_nat n = mw + ew + 1 -> is_nan _ _ x = true ->
  floating_point_to_fraction p t little n mw ew (bits x) = Ok (mkRaw 0 0).
Proof.
  intros p t n [sx|sx|sx pl HP|sx mx ex HB] W N H; try discriminate. rewrite of_float_fields by auto.
  cbn [split_bits_of_binary_float]. unfold of_fields. rewrite Z.eqb_refl. reflexivity.
Qed.

Lemma fields_out : forall o t mb eb s m e, signed_rep t -> 0 < mb <= rbits t - 2 -> rbits t <= 2 ^ 31 ->
  0 <= m < 2 ^ mb -> (e = 2 ^ eb - 1 -> m = 0) ->
  rbits t <= Z.abs (e - (2 ^ (eb - 1) - 1)) <= 2147483647 ->
  of_fields (denote o) t mb eb s m e = UB BadShift.
Proof.
  intros o t mb eb s m e SR M B Hm He X. pose proof SR as [W S].
  pose proof (rmax_signed t SR) as RM. pose proof (rmax_big t W).
  pose proof (pow2_le (mb + 1) (rbits t - 1) ltac:(lia)) as P. rewrite Z.pow_add_r in P by lia. change (2 ^ 1) with 2 in P.
  assert (U : of_fields (denote o) t mb eb s m e =
    (do x <- f_arith (denote o) t t Plus (IR 1 (mkRaw m (2 ^ mb)));
     do y <- f_arith (denote o) t t Multiplies (IR (sgn s) x);
     do w <- f_pow2 t (e - (2 ^ (eb - 1) - 1));
     f_arith (denote o) t t Multiplies (RR y w))).
  { unfold of_fields.
    assert (G : ((e =? 2 ^ eb - 1) && negb (m =? 0))%bool = false).
    { destruct (Z.eqb_spec e (2 ^ eb - 1)); [|reflexivity]. rewrite He by auto. reflexivity. }
    rewrite G.
    assert (NEG : m_neg t 1 = Ok (-1)).
    { unfold m_neg, arith. cbn [Z.opp]. rewrite (abs_fits t (-1)) by (auto; lia).
      destruct (rsigned t); [reflexivity|discriminate]. }
    assert (SG : (if s then m_neg t 1 else Ok 1) = Ok (sgn s)) by (destruct s; auto).
    rewrite SG. cbn [bind]. rewrite mu_pow2_ok by (auto; lia).
    destruct (Z.ltb_spec mb (rbits t)); [|lia]. cbn [bind]. unfold cast.
    rewrite !wrap_id by (auto; apply abs_fits; auto; lia). reflexivity. }
  rewrite U.
  destruct (plus_one_sized o t (mkRaw m (2 ^ mb)) SR) as [x [X1 [X2 X3]]]; cbn [num den] in *; [lia|lia|].
  destruct (times_sign_sized o t (sgn s) x SR) as [y [Y1 [Y2 Y3]]]; [destruct s; reflexivity|lia|lia|].
  rewrite X1; cbn [bind]. rewrite Y1; cbn [bind]. rewrite f_pow2_out by (auto; lia). reflexivity.
Qed.

Lemma small_fields : forall (x : float) q, float_value x = Some q -> (Qabs q < (2 # 1) ^ (2 - emax))%Q ->
  exists s m, split_bits_of_binary_float mw ew x = (s, m, 0) /\ 0 <= m < 2 ^ mw.
Proof.
  intros x q V SM. pose proof emax_2 as E2.
  destruct x as [sx|sx|sx pl HP|sx mx ex HB]; cbn [float_value] in V; try discriminate; apply some_inj in V; subst q.
  - exists sx, 0. split; [reflexivity|]. pose proof (pow2_pos mw). lia.
  - destruct (finite_cases sx mx ex HB) as [[M X]|[M X]].
    + exfalso. rewrite Qabs_finite in SM. destruct (scaled_between (Zpos mx) mw ex ltac:(lia) M) as [S1 _].
      assert (K : mw + ex < 2 - emax) by (apply Qpow_lt_inv; lra). unfold prec in *. lia.
    + exists sx, (Zpos mx). cbn [split_bits_of_binary_float]. change Zle_bool with Z.leb.
      destruct (Z.leb_spec 0 (Zpos mx - 2 ^ mw)); [lia|]. split; [reflexivity|lia].
Qed.

Theorem of_float_small : forall o t n (x : float) q, signed_rep t -> 8 * Z.of_nat n = mw + ew + 1 ->
  mw + 2 <= rbits t <= 2 ^ 31 -> rbits t < emax -> float_value x = Some q -> (Qabs q < (2 # 1) ^ (2 - emax))%Q ->
  floating_point_to_fraction (denote o) t little n mw ew (bits x) = UB BadShift.
Proof.
  intros o t n x q SR N B RB V SM. rewrite of_float_fields by (auto; apply SR). pose proof emax_2 as E2.
  assert (EM : emax <= 2 ^ 30) by (apply pow2_le; lia).
  destruct (small_fields x q V SM) as [s [m [F M]]]. rewrite F. apply fields_out; auto; fold emax; try lia.
Qed.

Theorem of_float_infinity : forall o t n (x : float), signed_rep t -> 8 * Z.of_nat n = mw + ew + 1 ->
  mw + 2 <= rbits t <= 2 ^ 31 -> rbits t <= emax -> is_nan _ _ x = false -> float_value x = None ->
  floating_point_to_fraction (denote o) t little n mw ew (bits x) = UB BadShift.
Proof.
  intros o t n x SR N B RB NN V. rewrite of_float_fields by (auto; apply SR). pose proof emax_2 as E2.
  assert (EM : emax <= 2 ^ 30) by (apply pow2_le; lia).
  destruct x as [sx|sx|sx pl HP|sx mx ex HB]; try discriminate. cbn [split_bits_of_binary_float].
  pose proof (pow2_pos mw ltac:(lia)). apply fields_out; auto; fold emax; lia.
Qed.

(** Whatever is returned is exact, for every bit pattern. *)
Theorem of_float_sound : forall o t n (x : float) r, signed_rep t -> 8 * Z.of_nat n = mw + ew + 1 ->
  mw + 2 <= rbits t <= emax ->
  floating_point_to_fraction (denote o) t little n mw ew (bits x) = Ok r -> same_value (value r) (float_value x).
Proof.
  intros o t n x r SR N B H. pose proof SR as [W S]. pose proof emax_2 as E2.
  assert (EM : emax <= 2 ^ 30) by (apply pow2_le; lia).
  destruct (is_nan _ _ x) eqn:NN.
  { rewrite of_float_nan in H by auto. injection H as <-. destruct x; try discriminate. exact I. }
  destruct (float_value x) as [q|] eqn:V; [|rewrite of_float_infinity in H; auto; [discriminate|lia|lia]].
  destruct (Qlt_le_dec (Qabs q) ((2 # 1) ^ (2 - emax))%Q) as [SM|NM].
  { exfalso. destruct (Z.eq_dec (rbits t) emax) as [RE|RE].
    - destruct (small_fields x q V SM) as [s [m [F M]]]. rewrite of_float_fields, F in H by auto. revert H.
      apply fields_edge; auto; fold emax; lia.
    - rewrite (of_float_small o t n x q) in H; auto; [discriminate|lia|lia]. }
  destruct (normal_fields x q V NM) as [s [m [e [F [M [E [V1 _]]]]]]]. rewrite of_float_fields, F in H by auto.
  set (X := e - (2 ^ (ew - 1) - 1)) in *.
  destruct (Z_lt_le_dec (Z.abs X) (rbits t - 1)) as [XL|XL].
  - eapply same_trans; [apply (fields_exact o t mw ew s m e r SR); auto; fold X; lia|]. cbn [same_value]. now rewrite V1.
  - exfalso. destruct (Z.eq_dec (Z.abs X) (rbits t - 1)) as [XE|XE].
    + revert H. apply fields_edge; auto; lia.
    + assert (XA : X = e - (emax - 1)) by reflexivity.
      rewrite fields_out in H; auto; try lia; try discriminate.
Qed.
End Format.
