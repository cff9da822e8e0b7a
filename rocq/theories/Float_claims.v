(** Proofs of the statements in Props_Float.v. *)

From Coq Require Import ZArith Reals QArith Qabs Qreduction Lia Lqa.
From Flocq Require Import Core.
From Flocq Require Import IEEE754.Binary IEEE754.Bits.
From Verif Require Import Machine Raw Ops Spec Fraction Float Float_spec Mixed_spec.
From Verif Require Import Machine_proofs Value_proofs Ops_proofs Tight_proofs Float_proofs Float2_proofs Float4_proofs.
Open Scope Z_scope.

Lemma c38_float_exact : forall o t (x : binary32) r,
  signed_rep t -> rbits t <= 128 ->
  to_fraction_float (denote o) t little x = Ok r -> same_value (value r) (float_value x).
Proof.
  intros o t x r SR B H. pose proof (proj1 SR) as W. unfold wf_rep in W.
  apply (of_float_sound 23 8 ltac:(lia) ltac:(lia) ltac:(lia) ltac:(cbn; lia) o t 4 x r SR); auto. cbn; lia.
Qed.

Lemma c38_double_exact : forall o t (x : binary64) r,
  signed_rep t -> 54 <= rbits t <= 1024 ->
  to_fraction_double (denote o) t little x = Ok r -> same_value (value r) (float_value x).
Proof.
  intros o t x r SR B H.
  apply (of_float_sound 52 11 ltac:(lia) ltac:(lia) ltac:(lia) ltac:(cbn; lia) o t 8 x r SR); auto.
Qed.

Lemma c38_float_total_partial : forall o t (x : binary32) q,
  signed_rep t -> rbits t <= 2 ^ 31 -> float_value x = Some q ->
  between (Z.max (-126) (25 - rbits t)) (rbits t - 24) q ->
  exists r, to_fraction_float (denote o) t little x = Ok r /\ same_value (value r) (Some q).
Proof.
  intros o t x q SR B V R. pose proof (proj1 SR) as W. unfold wf_rep in W.
  destruct (of_float_total 23 8 ltac:(lia) ltac:(lia) ltac:(lia) o t 4 x q SR) as [r [H [K _]]]; auto; try lia.
  - replace (rbits t - 23 - 1) with (rbits t - 24) by ring. exact R.
  - exists r; auto.
Qed.

Lemma c38_double_total_partial : forall o t (x : binary64) q,
  signed_rep t -> 54 <= rbits t <= 2 ^ 31 -> float_value x = Some q ->
  between (Z.max (-1022) (54 - rbits t)) (rbits t - 53) q ->
  exists r, to_fraction_double (denote o) t little x = Ok r /\ same_value (value r) (Some q).
Proof.
  intros o t x q SR B V R.
  destruct (of_float_total 52 11 ltac:(lia) ltac:(lia) ltac:(lia) o t 8 x q SR) as [r [H [K _]]]; auto; try lia.
  - replace (rbits t - 52 - 1) with (rbits t - 53) by ring. exact R.
  - exists r; auto.
Qed.

Lemma c38_float_significant_partial : forall o t (x : binary32) q k e,
  output_canonical o = true -> signed_rep t -> rbits t <= 2 ^ 31 -> float_value x = Some q ->
  significant k e q -> -126 <= e -> k + Z.abs e <= rbits t - 2 ->
  exists r, to_fraction_float (denote o) t little x = Ok r /\ same_value (value r) (Some q).
Proof.
  intros o t x q k e C SR B V S E K. pose proof (proj1 SR) as W. unfold wf_rep in W.
  destruct (of_float_significant 23 8 ltac:(lia) ltac:(lia) ltac:(lia) ltac:(cbn; lia) o t 4 x q k e C SR) as [r [H [G _]]]; auto; try lia.
  exists r; auto.
Qed.

Lemma c38_double_significant_partial : forall o t (x : binary64) q k e,
  output_canonical o = true -> signed_rep t -> 54 <= rbits t <= 2 ^ 31 -> float_value x = Some q ->
  significant k e q -> -1022 <= e -> k + Z.abs e <= rbits t - 2 ->
  exists r, to_fraction_double (denote o) t little x = Ok r /\ same_value (value r) (Some q).
Proof.
  intros o t x q k e C SR B V S E K.
  destruct (of_float_significant 52 11 ltac:(lia) ltac:(lia) ltac:(lia) ltac:(cbn; lia) o t 8 x q k e C SR) as [r [H [G _]]]; auto; try lia.
  exists r; auto.
Qed.

Lemma c38_float_defined_iff : forall o t (x : binary32) q,
  output_canonical o = true -> signed_rep t -> rbits t <= 127 -> float_value x = Some q ->
  ((exists r, to_fraction_float (denote o) t little x = Ok r) <->
   (exists k e, significant k e q /\ k + Z.abs e <= rbits t - 2)).
Proof.
  intros o t x q C SR B V. pose proof (proj1 SR) as W. unfold wf_rep in W.
  apply (of_float_defined_iff 23 8 ltac:(lia) ltac:(lia) ltac:(lia) ltac:(cbn; lia) o t 4 x q C SR); auto; try lia; cbn; lia.
Qed.

Lemma c38_double_defined_iff : forall o t (x : binary64) q,
  output_canonical o = true -> signed_rep t -> 54 <= rbits t <= 1023 -> float_value x = Some q ->
  ((exists r, to_fraction_double (denote o) t little x = Ok r) <->
   (exists k e, significant k e q /\ k + Z.abs e <= rbits t - 2)).
Proof.
  intros o t x q C SR B V.
  apply (of_float_defined_iff 52 11 ltac:(lia) ltac:(lia) ltac:(lia) ltac:(cbn; lia) o t 8 x q C SR); auto; try lia; cbn; lia.
Qed.

Lemma c38_zero_refuted : forall o t (x : binary32) q,
  signed_rep t -> rbits t <= 127 -> float_value x = Some q -> (Qabs q < (2 # 1) ^ (-126))%Q ->
  to_fraction_float (denote o) t little x = UB BadShift.
Proof.
  intros o t x q SR B V S. pose proof (proj1 SR) as W. unfold wf_rep in W.
  apply (of_float_small 23 8 ltac:(lia) ltac:(lia) ltac:(lia) ltac:(cbn; lia) o t 4 x q SR); auto; cbn; lia.
Qed.

Lemma c38_double_zero_refuted : forall o t (x : binary64) q,
  signed_rep t -> 54 <= rbits t <= 1023 -> float_value x = Some q -> (Qabs q < (2 # 1) ^ (-1022))%Q ->
  to_fraction_double (denote o) t little x = UB BadShift.
Proof.
  intros o t x q SR B V S.
  apply (of_float_small 52 11 ltac:(lia) ltac:(lia) ltac:(lia) ltac:(cbn; lia) o t 8 x q SR); auto; cbn; lia.
Qed.

Lemma c38_representable_refuted : exists (x : binary32) r,
  float_value x = Some (inject_Z (2 ^ 23 + 1) * (2 # 1) ^ 17)%Q /\ wf_raw int64 r /\
  same_value (value r) (float_value x) /\
  to_fraction_float (denote defaults) int64 little x = UB Overflow.
Proof.
  exists (B754_finite 24 128 false 8388609 17 eq_refl), (mkRaw ((2 ^ 23 + 1) * 2 ^ 17) 1).
  split; [vm_compute; reflexivity|]. split; [split; reflexivity|].
  split; [|vm_compute; reflexivity]. vm_compute. reflexivity.
Qed.

Lemma c39_nan_partial : forall p t,
  wf_rep t ->
  (forall x : binary32, is_nan 24 128 x = true -> to_fraction_float p t little x = Ok (mkRaw 0 0)) /\
  (forall x : binary64, is_nan 53 1024 x = true -> to_fraction_double p t little x = Ok (mkRaw 0 0)).
Proof.
  intros p t W. split; intros x N.
  - apply (of_float_nan 23 8 ltac:(lia) ltac:(lia) ltac:(lia) p t 4 x); auto.
  - apply (of_float_nan 52 11 ltac:(lia) ltac:(lia) ltac:(lia) p t 8 x); auto.
Qed.

Lemma c39_infinity_refuted : forall o t,
  signed_rep t -> 54 <= rbits t ->
  (forall x : binary32, is_nan 24 128 x = false -> float_value x = None -> rbits t <= 128 ->
     to_fraction_float (denote o) t little x = UB BadShift) /\
  (forall x : binary64, is_nan 53 1024 x = false -> float_value x = None -> rbits t <= 1024 ->
     to_fraction_double (denote o) t little x = UB BadShift).
Proof.
  intros o t SR B. split; intros x N V R.
  - apply (of_float_infinity 23 8 ltac:(lia) ltac:(lia) ltac:(lia) ltac:(cbn; lia) o t 4 x SR); auto; cbn; lia.
  - apply (of_float_infinity 52 11 ltac:(lia) ltac:(lia) ltac:(lia) ltac:(cbn; lia) o t 8 x SR); auto; cbn; lia.
Qed.

Lemma c40_correctly_rounded : forall t v q,
  wf_rep t -> wf_raw t v -> Z.abs (num v) <= rmax t -> Z.abs (den v) <= rmax t -> value v = Some q ->
  (rmax t <= 2 ^ 127 -> exactly_representable 24 (Qnum (Qred q)) -> exactly_representable 24 (Zpos (Qden (Qred q))) ->
   exists x, to_float t v = Ok x /\ is_finite 24 128 x = true /\
     B2R 24 128 x = round radix2 (FLT_exp (-149) 24) ZnearestE (Q2R q)) /\
  (rmax t <= 2 ^ 1023 -> exactly_representable 53 (Qnum (Qred q)) -> exactly_representable 53 (Zpos (Qden (Qred q))) ->
   exists x, to_double t v = Ok x /\ is_finite 53 1024 x = true /\
     B2R 53 1024 x = round radix2 (FLT_exp (-1074) 53) ZnearestE (Q2R q)) /\
  (rmax t <= 2 ^ 16383 -> exactly_representable 64 (Qnum (Qred q)) -> exactly_representable 64 (Zpos (Qden (Qred q))) ->
   exists x, to_long_double t v = Ok x /\ is_finite 64 16384 x = true /\
     B2R 64 16384 x = round radix2 (FLT_exp (-16445) 64) ZnearestE (Q2R q)).
Proof.
  intros t v q W WV N D V. split; [|split]; intros M EN ED.
  - exact (conv_rounded 24 128 eq_refl eq_refl default_nan_pl32 t v q W WV N D M V EN ED).
  - exact (conv_rounded 53 1024 eq_refl eq_refl default_nan_pl64 t v q W WV N D M V EN ED).
  - exact (conv_rounded 64 16384 eq_refl eq_refl long_double_nan t v q W WV N D M V EN ED).
Qed.

Lemma c40_nearest : forall t v q,
  wf_rep t -> wf_raw t v -> Z.abs (num v) <= rmax t -> Z.abs (den v) <= rmax t -> value v = Some q ->
  (rmax t <= 2 ^ 127 -> exactly_representable 24 (Qnum (Qred q)) -> exactly_representable 24 (Zpos (Qden (Qred q))) ->
   exists x qx, to_float t v = Ok x /\ float_value x = Some qx /\
     forall (y : binary32) qy, float_value y = Some qy -> (Qabs (qx - q) <= Qabs (qy - q))%Q) /\
  (rmax t <= 2 ^ 1023 -> exactly_representable 53 (Qnum (Qred q)) -> exactly_representable 53 (Zpos (Qden (Qred q))) ->
   exists x qx, to_double t v = Ok x /\ float_value x = Some qx /\
     forall (y : binary64) qy, float_value y = Some qy -> (Qabs (qx - q) <= Qabs (qy - q))%Q) /\
  (rmax t <= 2 ^ 16383 -> exactly_representable 64 (Qnum (Qred q)) -> exactly_representable 64 (Zpos (Qden (Qred q))) ->
   exists x qx, to_long_double t v = Ok x /\ float_value x = Some qx /\
     forall (y : binary_float 64 16384) qy, float_value y = Some qy -> (Qabs (qx - q) <= Qabs (qy - q))%Q).
Proof.
  intros t v q W WV N D V. split; [|split]; intros M EN ED.
  - exact (conv_nearest 24 128 eq_refl eq_refl default_nan_pl32 t v q W WV N D M V EN ED).
  - exact (conv_nearest 53 1024 eq_refl eq_refl default_nan_pl64 t v q W WV N D M V EN ED).
  - exact (conv_nearest 64 16384 eq_refl eq_refl long_double_nan t v q W WV N D M V EN ED).
Qed.

Lemma c40_undefined_nan : forall t v,
  wf_rep t -> wf_raw t v -> value v = None ->
  (exists x, to_float t v = Ok x /\ is_nan 24 128 x = true) /\
  (exists x, to_double t v = Ok x /\ is_nan 53 1024 x = true) /\
  (exists x, to_long_double t v = Ok x /\ is_nan 64 16384 x = true).
Proof.
  intros t v W WV V. split; [|split].
  - exact (conv_undefined 24 128 eq_refl eq_refl default_nan_pl32 t v W WV V).
  - exact (conv_undefined 53 1024 eq_refl eq_refl default_nan_pl64 t v W WV V).
  - exact (conv_undefined 64 16384 eq_refl eq_refl long_double_nan t v W WV V).
Qed.

Lemma c41_float_round_trip : forall o t (x : binary32) q,
  signed_rep t -> rbits t <= 128 -> float_value x = Some q ->
  between (Z.max (-126) (25 - rbits t)) (rbits t - 24) q ->
  exists r, to_fraction_float (denote o) t little x = Ok r /\ to_float t r = Ok x.
Proof.
  intros o t x q SR B V R. pose proof (proj1 SR) as W. unfold wf_rep in W.
  destruct (of_float_total 23 8 ltac:(lia) ltac:(lia) ltac:(lia) o t 4 x q SR) as [r [H [K [K1 K2]]]]; auto; try lia.
  { replace (rbits t - 23 - 1) with (rbits t - 24) by ring. exact R. }
  exists r. split; auto.
  apply (conv_back 24 128 eq_refl eq_refl default_nan_pl32 t x q r); auto.
  - split; apply abs_fits; auto.
  - rewrite (rmax_signed t SR). pose proof (pow2_le (rbits t - 1) 127 ltac:(lia)). change (128 - 1) with 127. lia.
  - intros Z. destruct R as [R _]. rewrite Z in R. pose proof (Qpow_pos (Z.max (-126) (25 - rbits t))).
    change (Qabs 0) with 0%Q in R. lra.
Qed.

Lemma c41_double_round_trip : forall o t (x : binary64) q,
  signed_rep t -> 54 <= rbits t <= 1024 -> float_value x = Some q ->
  between (Z.max (-1022) (54 - rbits t)) (rbits t - 53) q ->
  exists r, to_fraction_double (denote o) t little x = Ok r /\ to_double t r = Ok x.
Proof.
  intros o t x q SR B V R.
  destruct (of_float_total 52 11 ltac:(lia) ltac:(lia) ltac:(lia) o t 8 x q SR) as [r [H [K [K1 K2]]]]; auto; try lia.
  { replace (rbits t - 52 - 1) with (rbits t - 53) by ring. exact R. }
  exists r. split; auto.
  apply (conv_back 53 1024 eq_refl eq_refl default_nan_pl64 t x q r); auto.
  - apply SR.
  - split; apply abs_fits; auto.
  - rewrite (rmax_signed t SR). pose proof (pow2_le (rbits t - 1) 1023 ltac:(lia)). change (1024 - 1) with 1023. lia.
  - intros Z. destruct R as [R _]. rewrite Z in R. pose proof (Qpow_pos (Z.max (-1022) (54 - rbits t))).
    change (Qabs 0) with 0%Q in R. lra.
Qed.

Lemma c41_canonical_round_trip : forall o t q k e,
  output_canonical o = true -> signed_rep t -> significant k e q -> k + Z.abs e <= rbits t - 2 ->
  (forall x : binary32, float_value x = Some q -> rbits t <= 128 -> -126 <= e ->
     exists r, to_fraction_float (denote o) t little x = Ok r /\ to_float t r = Ok x) /\
  (forall x : binary64, float_value x = Some q -> 54 <= rbits t <= 1024 -> -1022 <= e ->
     exists r, to_fraction_double (denote o) t little x = Ok r /\ to_double t r = Ok x).
Proof.
  intros o t q k e C SR S K. pose proof (proj1 SR) as W. unfold wf_rep in W.
  assert (NZ : ~ (q == 0)%Q).
  { intros Z. destruct S as [n [[S1 S2] S3]]. rewrite Z in S3. change (Qabs 0) with 0%Q in S3.
    pose proof (Qpow_pos (e - k)). assert (0 < inject_Z n * (2 # 1) ^ (e - k))%Q; [|lra].
    apply Qmult_lt_0_compat; auto. change 0%Q with (inject_Z 0). rewrite <- Zlt_Qlt. pose proof (pow2_pos k S1). lia. }
  split; intros x V B E.
  - destruct (of_float_significant 23 8 ltac:(lia) ltac:(lia) ltac:(lia) ltac:(cbn; lia) o t 4 x q k e C SR) as [r [H [G [K1 K2]]]]; auto; try lia.
    exists r. split; auto. apply (conv_back 24 128 eq_refl eq_refl default_nan_pl32 t x q r); auto.
    + split; apply abs_fits; auto.
    + rewrite (rmax_signed t SR). pose proof (pow2_le (rbits t - 1) 127 ltac:(lia)). change (128 - 1) with 127. lia.
  - destruct (of_float_significant 52 11 ltac:(lia) ltac:(lia) ltac:(lia) ltac:(cbn; lia) o t 8 x q k e C SR) as [r [H [G [K1 K2]]]]; auto; try lia.
    exists r. split; auto. apply (conv_back 53 1024 eq_refl eq_refl default_nan_pl64 t x q r); auto.
    + split; apply abs_fits; auto.
    + rewrite (rmax_signed t SR). pose proof (pow2_le (rbits t - 1) 1023 ltac:(lia)). change (1024 - 1) with 1023. lia.
Qed.

Lemma c59_byte_order_refuted : exists (x : binary32) r s,
  to_fraction_float (denote defaults) int64 little x = Ok r /\
  to_fraction_float (denote defaults) int64 big x = Ok s /\
  same_value (value r) (float_value x) /\ ~ same_value (value s) (float_value x).
Proof.
  exists (B754_finite 24 128 false 16744704 (-21) eq_refl). eexists. eexists. split; [vm_compute; reflexivity|]. split; [vm_compute; reflexivity|].
  split; vm_compute; [reflexivity|discriminate].
Qed.

Lemma c59_bits_partial : forall e u,
  (0 <= u < 2 ^ 32 -> as_uint_rep e 4 u = u) /\ (0 <= u < 2 ^ 64 -> as_uint_rep e 8 u = u).
Proof.
  intros e u. split; intros H; apply as_uint_id.
  - change (256 ^ Z.of_nat 4) with (2 ^ 32). exact H.
  - change (256 ^ Z.of_nat 8) with (2 ^ 64). exact H.
Qed.

Lemma c59_big_endian : forall p t (x : binary32) (y : binary64),
  to_fraction_float p t big x = to_fraction_float p t little (b32_of_bits (rearranged 23 8 (bits_of_b32 x))) /\
  to_fraction_double p t big y = to_fraction_double p t little (b64_of_bits (rearranged 52 11 (bits_of_b64 y))).
Proof.
  intros p t x y. split.
  - pose proof (bits_of_binary_float_range 23 8 eq_refl eq_refl x) as R. unfold to_fraction_float.
    destruct (rearranged_range 23 8 (bits_of_b32 x) eq_refl eq_refl R) as [_ R'].
    unfold b32_of_bits, bits_of_b32 at 2. rewrite bits_of_binary_float_of_bits by exact R'. now apply big_endian_eq.
  - pose proof (bits_of_binary_float_range 52 11 eq_refl eq_refl y) as R. unfold to_fraction_double.
    destruct (rearranged_range 52 11 (bits_of_b64 y) eq_refl eq_refl R) as [_ R'].
    unfold b64_of_bits, bits_of_b64 at 2. rewrite bits_of_binary_float_of_bits by exact R'. now apply big_endian_eq.
Qed.

Lemma c65_relative_error : forall t v q,
  wf_rep t -> wf_raw t v -> Z.abs (num v) <= rmax t -> Z.abs (den v) <= rmax t -> value v = Some q ->
  (rmax t <= 2 ^ 126 -> exists x qx, to_float t v = Ok x /\ float_value x = Some qx /\
     (Qabs (qx - q) <= 4 * (2 # 1) ^ (-24) * Qabs q)%Q) /\
  (rmax t <= 2 ^ 1022 -> exists x qx, to_double t v = Ok x /\ float_value x = Some qx /\
     (Qabs (qx - q) <= 4 * (2 # 1) ^ (-53) * Qabs q)%Q) /\
  (rmax t <= 2 ^ 16382 -> exists x qx, to_long_double t v = Ok x /\ float_value x = Some qx /\
     (Qabs (qx - q) <= 4 * (2 # 1) ^ (-64) * Qabs q)%Q).
Proof.
  intros t v q W WV N D V. split; [|split]; intros M.
  - exact (conv_error 24 128 eq_refl eq_refl default_nan_pl32 t v q W WV N D ltac:(lia) M V).
  - exact (conv_error 53 1024 eq_refl eq_refl default_nan_pl64 t v q W WV N D ltac:(lia) M V).
  - exact (conv_error 64 16384 eq_refl eq_refl long_double_nan t v q W WV N D ltac:(lia) M V).
Qed.

Lemma c65_minimum_refuted : exists v,
  wf_raw int32 v /\ value v <> None /\ to_float int32 v = UB LibPrecond.
Proof. exists (mkRaw (-2147483648) 3). split; [split; reflexivity|]. split; [discriminate|reflexivity]. Qed.

