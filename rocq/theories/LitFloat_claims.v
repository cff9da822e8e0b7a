(** Proofs of the statements in Props_LitFloat.v. *)

From Coq Require Import String ZArith Reals QArith Qabs Qreduction Qreals List Bool Lia Lqa.
From Flocq Require Import Core.
From Flocq Require Import IEEE754.Binary IEEE754.Bits.
From Verif Require Import Machine Raw Ops Spec Fraction Float Float_spec Mixed_spec Parse Parse_spec Literals LitFloat_spec.
From Verif Require Import Machine_proofs Value_proofs Ops_proofs Algebra_proofs Cmp_proofs.
From Verif Require Import Parse_proofs Parse2_proofs Parse_claims Literals_claims Float_claims LitFloat_proofs.
Import ListNotations.
Open Scope Z_scope.

Lemma c99_literal_rounded : forall o t l,
  signed_rep t -> valid_literal l -> Z.of_nat (length (spell l)) <= 2147483647 -> exponent_digits l <= 9 ->
  literal_size l <= rmax t ->
  exists r, string_to_fraction (denote o) t (spell l) = Ok r /\
    (rmax t <= 2 ^ 127 -> literal_size l <= 2 ^ 24 ->
     exists x, to_float t r = Ok x /\ is_finite 24 128 x = true /\
       B2R 24 128 x = round radix2 (FLT_exp (-149) 24) ZnearestE (Q2R (literal_value l))) /\
    (rmax t <= 2 ^ 1023 -> literal_size l <= 2 ^ 53 ->
     exists x, to_double t r = Ok x /\ is_finite 53 1024 x = true /\
       B2R 53 1024 x = round radix2 (FLT_exp (-1074) 53) ZnearestE (Q2R (literal_value l))) /\
    (rmax t <= 2 ^ 16383 -> literal_size l <= 2 ^ 64 ->
     exists x, to_long_double t r = Ok x /\ is_finite 64 16384 x = true /\
       B2R 64 16384 x = round radix2 (FLT_exp (-16445) 64) ZnearestE (Q2R (literal_value l))).
Proof.
  intros o t l S V L X B. destruct (literal_parts o t l S V L X B) as (r & q & E & VQ & EQ & WR & N & D & P).
  exists r. split; [exact E|]. rewrite <- (Qeq_eqR _ _ EQ).
  destruct (c40_correctly_rounded t r q (proj1 S) WR N D VQ) as (F1 & F2 & F3).
  split; [|split]; intros M SZ.
  - destruct (P 24 eq_refl SZ) as [P1 P2]. exact (F1 M P1 P2).
  - destruct (P 53 eq_refl SZ) as [P1 P2]. exact (F2 M P1 P2).
  - destruct (P 64 eq_refl SZ) as [P1 P2]. exact (F3 M P1 P2).
Qed.

Lemma c99_literal_nearest : forall o t l,
  signed_rep t -> valid_literal l -> Z.of_nat (length (spell l)) <= 2147483647 -> exponent_digits l <= 9 ->
  literal_size l <= rmax t ->
  exists r, string_to_fraction (denote o) t (spell l) = Ok r /\
    (rmax t <= 2 ^ 127 -> literal_size l <= 2 ^ 24 ->
     exists x, to_float t r = Ok x /\ nearest (literal_value l) x) /\
    (rmax t <= 2 ^ 1023 -> literal_size l <= 2 ^ 53 ->
     exists x, to_double t r = Ok x /\ nearest (literal_value l) x) /\
    (rmax t <= 2 ^ 16383 -> literal_size l <= 2 ^ 64 ->
     exists x, to_long_double t r = Ok x /\ nearest (literal_value l) x).
Proof.
  intros o t l S V L X B. destruct (literal_parts o t l S V L X B) as (r & q & E & VQ & EQ & WR & N & D & P).
  exists r. split; [exact E|].
  destruct (c40_nearest t r q (proj1 S) WR N D VQ) as (F1 & F2 & F3).
  split; [|split]; intros M SZ.
  - destruct (P 24 eq_refl SZ) as [P1 P2]. destruct (F1 M P1 P2) as (x & qx & G1 & G2 & G3).
    exists x. split; [exact G1|]. exists qx. split; [exact G2|]. intros y qy HY. rewrite <- EQ. exact (G3 y qy HY).
  - destruct (P 53 eq_refl SZ) as [P1 P2]. destruct (F2 M P1 P2) as (x & qx & G1 & G2 & G3).
    exists x. split; [exact G1|]. exists qx. split; [exact G2|]. intros y qy HY. rewrite <- EQ. exact (G3 y qy HY).
  - destruct (P 64 eq_refl SZ) as [P1 P2]. destruct (F3 M P1 P2) as (x & qx & G1 & G2 & G3).
    exists x. split; [exact G1|]. exists qx. split; [exact G2|]. intros y qy HY. rewrite <- EQ. exact (G3 y qy HY).
Qed.

Lemma c99_dec_rounded : forall l,
  valid_literal l -> Z.of_nat (length (spell l)) <= 2147483647 -> exponent_digits l <= 9 ->
  is_hex l = false -> num_digits (l_whole l) + num_digits (l_fraction l) + Z.abs (l_scale l) <= 15 ->
  exists r x, literal_dec (spell l) = Ok (Some r) /\ to_double int64 r = Ok x /\ is_finite 53 1024 x = true /\
    B2R 53 1024 x = round radix2 (FLT_exp (-1074) 53) ZnearestE (Q2R (literal_value l)).
Proof.
  intros l V L X H D.
  assert (S : signed_rep int64) by (split; [unfold wf_rep; cbn; lia|reflexivity]).
  assert (B : literal_size l <= 10 ^ 15).
  { unfold literal_size, l_base. rewrite H. rewrite <- Z.pow_add_r; [|unfold num_digits; lia|lia].
    apply Z.pow_le_mono_r; lia. }
  assert (B1 : literal_size l <= rmax int64) by (apply (Z.le_trans _ _ _ B); vm_compute; discriminate).
  assert (B2 : literal_size l <= 2 ^ 53) by (apply (Z.le_trans _ _ _ B); vm_compute; discriminate).
  assert (B3 : rmax int64 <= 2 ^ 1023) by (vm_compute; discriminate).
  destruct (c99_literal_rounded defaults int64 l S V L X B1) as (r & E & _ & F & _).
  destruct (F B3 B2) as (x & F1 & F2 & F3).
  exists r, x. split; [|split; [exact F1|split; [exact F2|exact F3]]].
  destruct (c61_dec_exact l (Some r) V L) as (r' & v & R1 & R2 & _).
  - unfold literal_dec. rewrite E. cbn [bind]. unfold is_defined.
    destruct (c36_conversion_exact defaults int64 l r (proj1 S) (proj2 S) V L E) as (v & V1 & _).
    unfold value in V1. destruct (den r =? 0); [discriminate|reflexivity].
  - injection R1 as <-. unfold literal_dec. rewrite E. cbn [bind]. unfold is_defined.
    unfold value in R2. destruct (den r =? 0); [discriminate|reflexivity].
Qed.

Lemma c99_dec_error : forall l r,
  valid_literal l -> Z.of_nat (length (spell l)) <= 2147483647 -> literal_dec (spell l) = Ok (Some r) ->
  exists x qx, to_double int64 r = Ok x /\ float_value x = Some qx /\
    (Qabs (qx - literal_value l) <= 4 * (2 # 1) ^ (-53) * Qabs (literal_value l))%Q.
Proof.
  intros l r V L H. unfold literal_dec in H. inv_bind H.
  assert (S : signed_rep int64) by (split; [unfold wf_rep; cbn; lia|reflexivity]).
  match goal with E : string_to_fraction _ _ _ = Ok ?a |- _ =>
    destruct (c36_conversion_exact defaults int64 l a (proj1 S) (proj2 S) V L E) as (v & V1 & V2);
    assert (R : a = r) by (destruct (is_defined a); congruence); subst a;
    destruct (dec_bounded l r V L E) as (N & D) end.
  destruct (c65_relative_error int64 r v) as (_ & F & _); try assumption.
  - apply S.
  - pose proof (rmin_nonpos int64 (proj1 S)). split; rewrite in_rep_iff; lia.
  - lia.
  - lia.
  - assert (B : rmax int64 <= 2 ^ 1022) by (vm_compute; discriminate).
    destruct (F B) as (x & qx & F1 & F2 & F3).
    exists x, qx. split; [exact F1|]. split; [exact F2|]. rewrite <- V2. exact F3.
Qed.

Lemma c99_long_refuted : exists l r x y qx qy,
  valid_literal l /\ spell l = codes "1.0000000000000003" /\
  literal_dec (spell l) = Ok (Some r) /\ to_double int64 r = Ok x /\
  float_value x = Some qx /\ float_value (y : binary64) = Some qy /\
  (Qabs (qy - literal_value l) < Qabs (qx - literal_value l))%Q.
Proof.
  exists (mkLit [] (codes "1") (codes "0000000000000003") None), (mkRaw 10000000000000003 10000000000000000).
  assert (G : match to_double int64 (mkRaw 10000000000000003 10000000000000000) with
              | Ok x => float_value x = Some (inject_Z 4503599627370498 * (2 # 1) ^ (-52))%Q
              | UB _ => False
              end) by (vm_compute; reflexivity).
  destruct (to_double int64 (mkRaw 10000000000000003 10000000000000000)) as [x|u]; [|contradiction].
  exists x, (b64_of_bits 0x3FF0000000000001), (inject_Z 4503599627370498 * (2 # 1) ^ (-52))%Q,
    (inject_Z 4503599627370497 * (2 # 1) ^ (-52))%Q.
  split; [|split; [reflexivity|]].
  - split; [now left|]. split; [right; apply (valid_digits_iff 10); [now left|reflexivity]|].
    split; [right; apply (valid_digits_iff 10); [now left|reflexivity]|]. split; [left; discriminate|reflexivity].
  - split; [vm_compute; reflexivity|]. split; [reflexivity|]. split; [exact G|].
    split; [vm_compute; reflexivity|]. vm_compute. reflexivity.
Qed.

