(** Proofs of the statements in Props_Convert.v. *)

From Coq Require Import ZArith QArith Qabs Qreduction Lia Lqa.
From Flocq Require Import IEEE754.Binary IEEE754.Bits.
From Verif Require Import Machine Raw Ops Spec Fraction Float Float_spec Float3_spec Mixed_spec.
From Verif Require Import Machine_proofs Value_proofs Ops_proofs Algebra_proofs Tight_proofs Literals_proofs Float_proofs Float2_proofs Float3_proofs.
Open Scope Z_scope.

Ltac zdec := first [exact (fun x => match x with eq_refl => I end) | discriminate | reflexivity].

Lemma c72_monotone : forall t v w p q,
  wf_rep t -> symmetric t v -> symmetric t w -> value v = Some p -> value w = Some q -> (p <= q)%Q ->
  (rmax t <= 2 ^ 127 -> short_parts 24 p -> short_parts 24 q -> converted (to_float t) v w Qle) /\
  (rmax t <= 2 ^ 1023 -> short_parts 53 p -> short_parts 53 q -> converted (to_double t) v w Qle) /\
  (rmax t <= 2 ^ 16383 -> short_parts 64 p -> short_parts 64 q -> converted (to_long_double t) v w Qle).
Proof.
  intros t v w p q W SV SW V V' L. split; [|split]; intros M P Q.
  - exact (cv_monotone 24 128 eq_refl eq_refl default_nan_pl32 t v w p q W SV SW M V V' P Q L).
  - exact (cv_monotone 53 1024 eq_refl eq_refl default_nan_pl64 t v w p q W SV SW M V V' P Q L).
  - exact (cv_monotone 64 16384 eq_refl eq_refl long_double_nan t v w p q W SV SW M V V' P Q L).
Qed.

Lemma c72_monotone_refuted : exists v w p q x y px qy,
  symmetric int32 v /\ symmetric int32 w /\ value v = Some p /\ value w = Some q /\ (p < q)%Q /\
  to_float int32 v = Ok x /\ to_float int32 w = Ok y /\ float_value x = Some px /\ float_value y = Some qy /\ (qy < px)%Q.
Proof.
  exists (mkRaw 5592404 5592405), (mkRaw 16777217 16777219), (5592404 # 5592405)%Q, (16777217 # 16777219)%Q.
  eexists _, _, _, _. split; [repeat split; cbn; lia|]. split; [repeat split; cbn; lia|].
  split; [reflexivity|]. split; [reflexivity|]. split; [reflexivity|].
  split; [reflexivity|]. split; [reflexivity|]. split; [reflexivity|]. split; [reflexivity|]. reflexivity.
Qed.

Lemma c72_monotone_double_refuted : exists v w p q x y px qy,
  symmetric int64 v /\ symmetric int64 w /\ value v = Some p /\ value w = Some q /\ (p < q)%Q /\
  to_double int64 v = Ok x /\ to_double int64 w = Ok y /\ float_value x = Some px /\ float_value y = Some qy /\ (qy < px)%Q.
Proof.
  exists (mkRaw 9007199254740988 9007199254740991), (mkRaw 9007199254740993 9007199254740995),
    (9007199254740988 # 9007199254740991)%Q, (9007199254740993 # 9007199254740995)%Q.
  eexists _, _, _, _. split; [repeat split; cbn; lia|]. split; [repeat split; cbn; lia|].
  split; [reflexivity|]. split; [reflexivity|]. split; [reflexivity|].
  split; [reflexivity|]. split; [reflexivity|]. split; [reflexivity|]. split; [reflexivity|]. reflexivity.
Qed.

Lemma c72_sign : forall t v q,
  wf_rep t -> symmetric t v -> value v = Some q ->
  (rmax t <= 2 ^ 126 -> exists x qx, to_float t v = Ok x /\ float_value x = Some qx /\
     ((0 < qx <-> 0 < q) /\ (qx < 0 <-> q < 0) /\ (qx == 0 <-> q == 0))%Q) /\
  (rmax t <= 2 ^ 1022 -> exists x qx, to_double t v = Ok x /\ float_value x = Some qx /\
     ((0 < qx <-> 0 < q) /\ (qx < 0 <-> q < 0) /\ (qx == 0 <-> q == 0))%Q) /\
  (rmax t <= 2 ^ 16382 -> exists x qx, to_long_double t v = Ok x /\ float_value x = Some qx /\
     ((0 < qx <-> 0 < q) /\ (qx < 0 <-> q < 0) /\ (qx == 0 <-> q == 0))%Q).
Proof.
  intros t v q W SV V. split; [|split]; intros M.
  - exact (cv_sign 24 128 eq_refl eq_refl default_nan_pl32 t v q W SV ltac:(zdec) M V).
  - exact (cv_sign 53 1024 eq_refl eq_refl default_nan_pl64 t v q W SV ltac:(zdec) M V).
  - exact (cv_sign 64 16384 eq_refl eq_refl long_double_nan t v q W SV ltac:(zdec) M V).
Qed.

Lemma c72_opposite : forall t v w p q,
  wf_rep t -> symmetric t v -> symmetric t w -> value v = Some p -> value w = Some q -> (q == - p)%Q ->
  (rmax t <= 2 ^ 127 -> converted (to_float t) v w (fun a b => b == - a)%Q) /\
  (rmax t <= 2 ^ 1023 -> converted (to_double t) v w (fun a b => b == - a)%Q) /\
  (rmax t <= 2 ^ 16383 -> converted (to_long_double t) v w (fun a b => b == - a)%Q).
Proof.
  intros t v w p q W SV SW V V' E. split; [|split]; intros M.
  - exact (cv_opposite 24 128 eq_refl eq_refl default_nan_pl32 t v w p q W SV SW M V V' E).
  - exact (cv_opposite 53 1024 eq_refl eq_refl default_nan_pl64 t v w p q W SV SW M V V' E).
  - exact (cv_opposite 64 16384 eq_refl eq_refl long_double_nan t v w p q W SV SW M V V' E).
Qed.

Lemma c73_compare : forall t v w p q,
  wf_rep t -> symmetric t v -> symmetric t w -> value v = Some p -> value w = Some q ->
  (rmax t <= 2 ^ 126 -> parts_at_most (2 ^ 11) p -> parts_at_most (2 ^ 11) q ->
     converted (to_float t) v w (fun a b => (a ?= b)%Q = (p ?= q)%Q)) /\
  (rmax t <= 2 ^ 1022 -> parts_at_most (2 ^ 26) p -> parts_at_most (2 ^ 26) q ->
     converted (to_double t) v w (fun a b => (a ?= b)%Q = (p ?= q)%Q)) /\
  (rmax t <= 2 ^ 16382 -> parts_at_most (2 ^ 31) p -> parts_at_most (2 ^ 31) q ->
     converted (to_long_double t) v w (fun a b => (a ?= b)%Q = (p ?= q)%Q)).
Proof.
  intros t v w p q W SV SW V V'. split; [|split]; intros M P Q.
  - exact (cv_compare 24 128 eq_refl eq_refl default_nan_pl32 t v w p q 11 W SV SW ltac:(zdec) M V V' ltac:(zdec) ltac:(zdec) P Q).
  - exact (cv_compare 53 1024 eq_refl eq_refl default_nan_pl64 t v w p q 26 W SV SW ltac:(zdec) M V V' ltac:(zdec) ltac:(zdec) P Q).
  - exact (cv_compare 64 16384 eq_refl eq_refl long_double_nan t v w p q 31 W SV SW ltac:(zdec) M V V' ltac:(zdec) ltac:(zdec) P Q).
Qed.

Lemma c73_int32_long_double : forall v w p q,
  symmetric int32 v -> symmetric int32 w -> value v = Some p -> value w = Some q ->
  converted (to_long_double int32) v w (fun a b => (a ?= b)%Q = (p ?= q)%Q).
Proof.
  intros v w p q SV SW V V'.
  assert (S : forall z r, symmetric int32 z -> value z = Some r -> parts_at_most (2 ^ 31) r).
  { intros z r [WZ [N D]] R. assert (W : wf_rep int32) by (unfold wf_rep; cbn; lia).
    destruct (reduced_parts 24 128 int32 z r W WZ N D R) as [y [_ [Y1 [Y2 [Y3 Y4]]]]].
    unfold parts_at_most. rewrite <- Y3, <- Y4. change (rmax int32) with (2 ^ 31 - 1) in *. lia. }
  apply (c73_compare int32 v w p q); eauto; [unfold wf_rep; cbn; lia|].
  rewrite rmax_signed by (split; [unfold wf_rep; cbn; lia|reflexivity]).
  apply Z.le_trans with (2 ^ 31); [cbn; lia|]. apply pow2_le. lia.
Qed.

Lemma c73_int32_double_refuted : exists v w p q x,
  symmetric int32 v /\ symmetric int32 w /\ value v = Some p /\ value w = Some q /\ ~ (p == q)%Q /\
  to_double int32 v = Ok x /\ to_double int32 w = Ok x.
Proof.
  exists (mkRaw 2147483647 2147483646), (mkRaw 2147483646 2147483645), (2147483647 # 2147483646)%Q, (2147483646 # 2147483645)%Q.
  eexists. split; [repeat split; cbn; lia|]. split; [repeat split; cbn; lia|].
  split; [reflexivity|]. split; [reflexivity|]. split; [discriminate|].
  assert (B : forall x y : binary64, bits_of_b64 x = bits_of_b64 y -> x = y).
  { intros x y E. unfold bits_of_b64 in E.
    rewrite <- (binary_float_of_bits_of_binary_float 52 11 eq_refl eq_refl eq_refl x).
    rewrite <- (binary_float_of_bits_of_binary_float 52 11 eq_refl eq_refl eq_refl y). now rewrite E. }
  split; [reflexivity|].
  match goal with |- ?l = Ok ?x => assert (L : exists y, l = Ok y /\ bits_of_b64 y = bits_of_b64 x) end.
  { eexists. split; [reflexivity|]. vm_compute. reflexivity. }
  destruct L as [y [L E]]. rewrite L. f_equal. now apply B.
Qed.

Lemma c74_round_trip : forall o t v q k e,
  output_canonical o = true -> signed_rep t -> symmetric t v -> value v = Some q ->
  significant k e q -> k + Z.abs e <= rbits t - 2 ->
  (rbits t <= 128 -> k <= 23 ->
     exists x r, to_float t v = Ok x /\ same_value (float_value x) (Some q) /\
       to_fraction_float (denote o) t little x = Ok r /\ same_value (value r) (Some q) /\ (canonical v -> r = v)) /\
  (54 <= rbits t <= 1024 -> k <= 52 ->
     exists x r, to_double t v = Ok x /\ same_value (float_value x) (Some q) /\
       to_fraction_double (denote o) t little x = Ok r /\ same_value (value r) (Some q) /\ (canonical v -> r = v)).
Proof.
  intros o t v q k e C SR SV V S KE. pose proof (proj1 SR) as W. pose proof W as W'. unfold wf_rep in W'.
  assert (K0 : 0 <= k) by (destruct S as [n [[S1 _] _]]; exact S1).
  pose proof (rmax_signed t SR) as RM. split; intros B K.
  - destruct (cv_dyadic 24 128 eq_refl eq_refl default_nan_pl32 t v q k e) as [x [X1 X2]]; auto; try lia.
    { rewrite RM. pose proof (pow2_le (rbits t - 1) 127 ltac:(lia)). change (128 - 1) with 127. lia. }
    assert (exists qx, float_value x = Some qx /\ (qx == q)%Q) as [qx [FX EX]].
    { destruct (float_value x); [|contradiction]. eauto. }
    destruct (of_float_significant 23 8 ltac:(lia) ltac:(lia) ltac:(lia) ltac:(cbn; lia) o t 4 x qx k e C SR)
      as [r [H [G _]]]; auto; try lia.
    { apply (significant_eq k e q); auto. now symmetry. }
    exists x, r. split; [exact X1|]. split; auto. split; [exact H|]. 
    assert (G' : same_value (value r) (Some q)) by (eapply same_trans; [exact G|exact EX]). split; auto.
    intros CV. apply canonical_unique; auto; [eapply of_float_canonical; eauto|]. now rewrite V.
  - destruct (cv_dyadic 53 1024 eq_refl eq_refl default_nan_pl64 t v q k e) as [x [X1 X2]]; auto; try lia.
    { rewrite RM. pose proof (pow2_le (rbits t - 1) 1023 ltac:(lia)). change (1024 - 1) with 1023. lia. }
    assert (exists qx, float_value x = Some qx /\ (qx == q)%Q) as [qx [FX EX]].
    { destruct (float_value x); [|contradiction]. eauto. }
    destruct (of_float_significant 52 11 ltac:(lia) ltac:(lia) ltac:(lia) ltac:(cbn; lia) o t 8 x qx k e C SR)
      as [r [H [G _]]]; auto; try lia.
    { apply (significant_eq k e q); auto. now symmetry. }
    exists x, r. split; [exact X1|]. split; auto. split; [exact H|]. 
    assert (G' : same_value (value r) (Some q)) by (eapply same_trans; [exact G|exact EX]). split; auto.
    intros CV. apply canonical_unique; auto; [eapply of_float_canonical; eauto|]. now rewrite V.
Qed.

