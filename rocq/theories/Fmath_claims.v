(** Proofs of the statements in Props_Fmath.v. *)

From Coq Require Import ZArith QArith Qabs Qpower Bool Lia Lqa.
From Coq Require Import List.
Import ListNotations.
From Verif Require Import Machine Raw Ops Spec Fraction Fraction_spec Fmath Fmath_spec.
From Verif Require Import Machine_proofs Value_proofs Ops_proofs Total_proofs Cmp_proofs Order_proofs Algebra_proofs Fraction_proofs Fmath_proofs Fmath2_proofs.
Open Scope Z_scope.

Lemma c26_abs_exact : forall o t v r x,
  wf_rep t -> rsigned t = true -> wf_raw t v -> value v = Some x ->
  f_abs (denote o) t v = Ok r ->
  exists y, value r = Some y /\ (y == Qabs x)%Q /\ (0 <= y)%Q.
Proof.
  intros o t v r x W S Wv V H. destruct (f_abs_spec o t v r W S Wv H x V) as [y [Y E]].
  exists y. split; auto. split; auto. rewrite E. apply Qabs_nonneg.
Qed.

Lemma c26_abs_total : forall o t v,
  wf_rep t -> rsigned t = true -> wf_raw t v ->
  Z.abs (num v) <= rmax t -> Z.abs (den v) <= rmax t ->
  exists r, f_abs (denote o) t v = Ok r.
Proof.
  intros o t v W S Wv Bn Bd. unfold f_abs. destruct (is_non_negative v); eauto.
  destruct (negate_total o t v W S Wv (conj Bn Bd)) as [r [H _]]. exists r. exact H.
Qed.

Lemma c27_trunc_toward_zero : forall t v k,
  wf_rep t -> wf_raw t v -> f_trunc t v = Ok k ->
  exists q, value v = Some q /\ is_trunc k q.
Proof. exact f_trunc_spec. Qed.

Lemma c27_trunc_defined_iff : forall t v,
  wf_rep t -> wf_raw t v ->
  ((exists k, f_trunc t v = Ok k) <->
   den v <> 0 /\ ~ (rsigned t = true /\ num v = rmin t /\ den v = -1)).
Proof. exact f_trunc_defined. Qed.

Lemma c28_floor_partial : forall t v k,
  wf_rep t -> wf_raw t v -> f_floor t v = Ok k ->
  exists q, value v = Some q /\
    (~ tiny_negative q -> is_floor k q) /\ (tiny_negative q -> k = 0).
Proof.
  intros t v k W Wv H. destruct (f_floor_spec t v k W Wv H) as [q [V [F1 F2]]]. exists q. auto.
Qed.

Lemma c28_floor_defined_iff : forall t v,
  wf_rep t -> wf_raw t v ->
  ((exists k, f_floor t v = Ok k) <->
   den v <> 0 /\ ~ (rsigned t = true /\ num v = rmin t /\ den v = -1)).
Proof. exact f_floor_defined. Qed.

Lemma c28_floor_unsigned : forall t v k,
  wf_rep t -> rsigned t = false -> wf_raw t v -> f_floor t v = Ok k ->
  exists q, value v = Some q /\ is_floor k q.
Proof.
  intros t v k W S Wv H. destruct (f_floor_spec t v k W Wv H) as [q [V [_ F]]].
  exists q. split; auto. apply F. intros [_ T].
  apply (Qlt_not_le _ _ T). eapply value_nonneg_unsigned; eauto.
Qed.

Lemma c28_floor_refuted : exists v k q,
  wf_raw int32 v /\ f_floor int32 v = Ok k /\ value v = Some q /\ ~ is_floor k q.
Proof.
  exists (mkRaw (-1) 2), 0, ((-1) / 2)%Q. repeat split; try reflexivity.
  intros [H _]. vm_compute in H. now apply H.
Qed.

Lemma c29_ceil_partial : forall t v k,
  wf_rep t -> wf_raw t v -> f_ceil t v = Ok k ->
  exists q, value v = Some q /\
    (~ tiny_negative q -> is_ceil k q) /\ (tiny_negative q -> k = 1).
Proof.
  intros t v k W Wv H. destruct (f_ceil_spec t v k W Wv H) as [q [V [F1 F2]]]. exists q. auto.
Qed.

Lemma c29_ceil_defined_iff : forall t v,
  wf_rep t -> wf_raw t v ->
  ((exists k, f_ceil t v = Ok k) <->
   den v <> 0 /\ ~ (rsigned t = true /\ num v = rmin t /\ den v = -1)).
Proof. exact f_ceil_defined. Qed.

Lemma c29_ceil_unsigned : forall t v k,
  wf_rep t -> rsigned t = false -> wf_raw t v -> f_ceil t v = Ok k ->
  exists q, value v = Some q /\ is_ceil k q.
Proof.
  intros t v k W S Wv H. destruct (f_ceil_spec t v k W Wv H) as [q [V [_ F]]].
  exists q. split; auto. apply F. intros [_ T].
  apply (Qlt_not_le _ _ T). eapply value_nonneg_unsigned; eauto.
Qed.

Lemma c29_ceil_refuted : exists v k q,
  wf_raw int32 v /\ f_ceil int32 v = Ok k /\ value v = Some q /\ ~ is_ceil k q.
Proof.
  exists (mkRaw (-1) 2), 1, ((-1) / 2)%Q. repeat split; try reflexivity.
  intros [H _]. vm_compute in H. discriminate.
Qed.

Lemma c30_round_partial : forall o t v k,
  wf_rep t -> rsigned t = true -> wf_raw t v ->
  built_on_safe o = true \/ normalises_inputs o = true \/ 0 < den v ->
  f_round (denote o) t v = Ok k ->
  exists q, value v = Some q /\
    (~ below_minus_half q -> is_round k q) /\ (below_minus_half q -> k = 0).
Proof.
  intros o t v k W S Wv C H. destruct (f_round_spec o t v k W S Wv C H) as [q [V [F1 F2]]]. exists q. auto.
Qed.

Lemma c30_round_total : forall o t v B,
  wf_rep t -> rsigned t = true -> wf_raw t v ->
  built_on_safe o = true \/ normalises_inputs o = true \/ 0 < den v ->
  den v <> 0 -> raw_bounded B v -> 4 * B * B * B * B <= rmax t ->
  exists k, f_round (denote o) t v = Ok k.
Proof. exact f_round_total. Qed.

Lemma c30_round_refuted : forall o,
  List.In o [Safe; Fast; safe_reduced_i; safe_reduced_o; safe_reduced_io;
             fast_reduced_i; fast_reduced_o; fast_reduced_io; defaults] ->
  exists v k q, wf_raw int32 v /\ f_round (denote o) int32 v = Ok k /\ value v = Some q /\ ~ is_round k q.
Proof.
  intros o H. exists (mkRaw (-3) 4), 0, ((-3) / 4)%Q.
  cbn [List.In] in H.
  repeat (destruct H as [<-|H]; [repeat split; try reflexivity; intros [K _]; vm_compute in K; now apply K|]).
  contradiction.
Qed.

Lemma c30_fast_round_refuted : exists v k q,
  wf_raw int32 v /\ f_round (denote Fast) int32 v = Ok k /\ value v = Some q /\
  (0 < q)%Q /\ ~ is_round k q.
Proof.
  exists (mkRaw (-5) (-4)), 2, ((-5) / (-4))%Q. repeat split; try reflexivity.
  intros [K _]. vm_compute in K. now apply K.
Qed.

Lemma c31_trunc_redenominate : forall o t v d r,
  wf_rep t -> rsigned t = true -> wf_raw t v -> in_rep t d = true -> d <> 0 ->
  f_redenominate (denote o) t v d round_trunc = Ok r ->
  exists q v' k, value v = Some q /\ value r = Some v' /\ den r = d /\
    is_over v' k (Z.abs d) /\ is_trunc k (q * inject_Z (Z.abs d)).
Proof. exact f_trunc_redenominate_spec. Qed.

Lemma c31_floor_redenominate_partial : forall o t v d r,
  wf_rep t -> rsigned t = true -> wf_raw t v -> in_rep t d = true -> d <> 0 ->
  f_redenominate (denote o) t v d round_floor = Ok r ->
  exists q v' k, value v = Some q /\ value r = Some v' /\ den r = d /\
    is_over v' k (Z.abs d) /\
    (tiny_negative (q * inject_Z (Z.abs d)) -> k = 0) /\
    (~ tiny_negative (q * inject_Z (Z.abs d)) -> is_floor k (q * inject_Z (Z.abs d))).
Proof. exact f_floor_redenominate_spec. Qed.

Lemma c31_ceil_redenominate_partial : forall o t v d r,
  wf_rep t -> rsigned t = true -> wf_raw t v -> in_rep t d = true -> d <> 0 ->
  f_redenominate (denote o) t v d round_ceil = Ok r ->
  exists q v' k, value v = Some q /\ value r = Some v' /\ den r = d /\
    is_over v' k (Z.abs d) /\
    (tiny_negative (q * inject_Z (Z.abs d)) -> k = 1) /\
    (~ tiny_negative (q * inject_Z (Z.abs d)) -> is_ceil k (q * inject_Z (Z.abs d))).
Proof. exact f_ceil_redenominate_spec. Qed.

Lemma c31_round_redenominate_partial : forall o t v d r,
  wf_rep t -> rsigned t = true -> wf_raw t v ->
  built_on_safe o = true \/ normalises_inputs o = true \/ 0 < den v ->
  in_rep t d = true -> d <> 0 ->
  f_redenominate (denote o) t v d round_round = Ok r ->
  exists q v' k, value v = Some q /\ value r = Some v' /\ den r = d /\
    is_over v' k d /\
    (below_minus_half (q * inject_Z d) -> k = 0) /\
    (~ below_minus_half (q * inject_Z d) -> is_round k (q * inject_Z d)).
Proof. exact f_round_redenominate_spec. Qed.

Lemma c31_redenominate_refuted :
  f_redenominate (denote defaults) int32 (mkRaw (-1) 8) 4 round_ceil = Ok (mkRaw 1 4) /\
  f_redenominate (denote defaults) int32 (mkRaw (-1) 8) 4 round_floor = Ok (mkRaw 0 4) /\
  f_redenominate (denote defaults) int32 (mkRaw (-3) 16) 4 round_round = Ok (mkRaw 0 4).
Proof. repeat split; vm_compute; reflexivity. Qed.

Lemma c32_pow_exact : forall t b e r,
  wf_rep t -> rsigned t = true -> in_rep t b = true -> -2147483647 <= e <= 2147483647 ->
  f_pow t b e = Ok r ->
  (0 <= e \/ b <> 0 -> exists v, value r = Some v /\ (v == inject_Z b ^ e)%Q) /\
  (e < 0 -> b = 0 -> value r = None).
Proof. exact f_pow_value. Qed.

Lemma c32_pow_defined_iff : forall t b e,
  wf_rep t -> rsigned t = true -> in_rep t b = true -> -2147483647 <= e <= 2147483647 ->
  ((exists r, f_pow t b e = Ok r) <-> in_rep t (b ^ Z.abs e) = true).
Proof. exact f_pow_defined. Qed.

Lemma c32_pow_unsigned : forall t b e,
  wf_rep t -> rsigned t = false -> in_rep t b = true -> 0 <= e <= 2147483647 ->
  f_pow t b e = Ok (mkRaw ((b ^ e) mod 2 ^ rbits t) 1).
Proof.
  intros t b e W S Wb He. rewrite f_pow_eq by (auto; lia). unfold arith, wrap. rewrite S.
  rewrite Z.geb_leb, (proj2 (Z.leb_le 0 e)), Z.abs_eq by lia. reflexivity.
Qed.

Lemma c32_pow2_exact : forall t e,
  wf_rep t -> Z.abs e < (if rsigned t then rbits t - 1 else rbits t) -> Z.abs e <= 2147483647 ->
  exists r v, f_pow2 t e = Ok r /\ value r = Some v /\ (v == (2 # 1) ^ e)%Q.
Proof. exact f_pow2_value. Qed.

Lemma c32_pow2_out_of_range : forall t e,
  wf_rep t -> rbits t <= Z.abs e <= 2147483647 -> f_pow2 t e = UB BadShift.
Proof. exact f_pow2_out. Qed.

Lemma c32_int_min_exponent : forall t b,
  f_pow t b (-2147483648) = UB Overflow /\ f_pow2 t (-2147483648) = UB Overflow.
Proof. intros. split; reflexivity. Qed.

Lemma c32_pow2_sign_bit_refuted : forall t,
  wf_rep t -> rsigned t = true -> rbits t <= 2147483648 ->
  f_pow2 t (rbits t - 1) = Ok (mkRaw (- 2 ^ (rbits t - 1)) 1).
Proof.
  intros t W S B. unfold wf_rep in W. rewrite f_pow2_eq by (unfold wf_rep; lia).
  rewrite (proj2 (Z.ltb_lt _ _)), Z.geb_leb, (proj2 (Z.leb_le 0 _)) by lia.
  do 2 f_equal. unfold wrap. rewrite S.
  replace (2 ^ rbits t) with (2 ^ (rbits t - 1) + 2 ^ (rbits t - 1)).
  2:{ replace (rbits t) with (Z.succ (rbits t - 1)) at 3 by lia. rewrite Z.pow_succ_r by lia. lia. }
  rewrite Z.mod_same; [lia|]. pose proof (Z.pow_pos_nonneg 2 (rbits t - 1)). lia.
Qed.

