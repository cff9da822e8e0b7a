(** Proofs of the statements in Props_Dyadic.v. *)

From Coq Require Import ZArith QArith Qabs Qreals Reals List Bool Lia Lra.
From Flocq Require Import Core.
From Flocq Require Import IEEE754.BinarySingleNaN.
From Flocq Require Import IEEE754.Binary IEEE754.Bits.
From Verif Require Import Machine Raw Ops Spec Fraction Fraction_spec Float Float_spec Mixed_spec Sums Sums_spec LitFloat_spec Dyadic_spec.
From Verif Require Import Fmath Program Program_spec.
From Verif Require Import Float2_proofs Dyadic_proofs Fraction_claims Float_claims Program_claims Defined_proofs.
Import ListNotations.
Open Scope Z_scope.

Lemma c102_dyadic_rounded : forall t v q,
  wf_rep t -> wf_raw t v -> Z.abs (num v) <= rmax t -> Z.abs (den v) <= rmax t -> value v = Some q -> dyadic q ->
  (rmax t <= 2 ^ 126 -> exists x, to_float t v = Ok x /\ is_finite 24 128 x = true /\
     B2R 24 128 x = round radix2 (FLT_exp (-149) 24) ZnearestE (Q2R q)) /\
  (rmax t <= 2 ^ 1022 -> exists x, to_double t v = Ok x /\ is_finite 53 1024 x = true /\
     B2R 53 1024 x = round radix2 (FLT_exp (-1074) 53) ZnearestE (Q2R q)) /\
  (rmax t <= 2 ^ 16382 -> exists x, to_long_double t v = Ok x /\ is_finite 64 16384 x = true /\
     B2R 64 16384 x = round radix2 (FLT_exp (-16445) 64) ZnearestE (Q2R q)).
Proof.
  intros t v q W WV N D V Q. split; [|split]; intros M.
  - exact (conv_dyadic 24 128 eq_refl eq_refl default_nan_pl32 t v q W WV N D M V Q).
  - exact (conv_dyadic 53 1024 eq_refl eq_refl default_nan_pl64 t v q W WV N D M V Q).
  - exact (conv_dyadic 64 16384 eq_refl eq_refl long_double_nan t v q W WV N D M V Q).
Qed.

Lemma c102_polynomials : forall o t e q r,
  signed_rep t -> 54 <= rbits t <= 1023 -> wf_expr t e -> polynomial e ->
  Forall (fun v => (exists x : binary64, to_fraction_double (denote o) t little x = Ok v) \/
                   (exists x : binary32, to_fraction_float (denote o) t little x = Ok v) /\ rbits t <= 128) (leaves e) ->
  denotes e = Some q ->
  eval (denote o) t e = Ok r -> Z.abs (num r) <= rmax t -> Z.abs (den r) <= rmax t ->
  exists y, to_double t r = Ok y /\ is_finite 53 1024 y = true /\
    B2R 53 1024 y = to_nearest_double (Q2R q) /\ nearest q y.
Proof.
  intros o t e q r S B We P F D E NR DR. pose proof S as [W SG].
  destruct (c55_expression_exact_any_policy o t e r q W SG We D E) as (q' & V & EQ).
  assert (DY : dyadic q').
  { apply (dyadic_comp q); [now symmetry|]. apply (polynomial_dyadic e); auto.
    eapply Forall_impl; [|exact F]. intros v HV p PV. cbv beta in HV.
    destruct HV as [[x X]|[[x X] B2]].
    - pose proof (c38_double_exact o t x v S ltac:(lia) X) as EX. rewrite PV in EX.
      destruct (float_value x) as [u|] eqn:U; [|contradiction]. cbn [same_value] in EX.
      apply (dyadic_comp u); [now symmetry|]. eapply dyadic_float; eauto.
    - pose proof (c38_float_exact o t x v S B2 X) as EX. rewrite PV in EX.
      destruct (float_value x) as [u|] eqn:U; [|contradiction]. cbn [same_value] in EX.
      apply (dyadic_comp u); [now symmetry|]. eapply dyadic_float; eauto. }
  assert (WR : wf_raw t r) by (apply (bounded_wf t r S); now split).
  assert (M : rmax t <= 2 ^ (1024 - 2)).
  { rewrite (Float_proofs.rmax_signed t S). pose proof (Float_proofs.pow2_le (rbits t - 1) 1022 ltac:(lia)). change (1024 - 2) with 1022. lia. }
  destruct (conv_dyadic 53 1024 eq_refl eq_refl default_nan_pl64 t r q' W WR NR DR M V DY) as (y & Y1 & Y2 & Y3).
  destruct (conv_dyadic_nearest 53 1024 eq_refl eq_refl default_nan_pl64 t r q' W WR NR DR M V DY) as (z & qz & Z1 & Z2 & Z3).
  exists y. split; [exact Y1|]. split; [exact Y2|]. split.
  - rewrite Y3. unfold to_nearest_double. now rewrite (Qeq_eqR _ _ EQ).
  - assert (z = y) by (unfold fraction_to_floating_point in *; congruence). subst z. exists qz. split; auto.
    intros u qu QU. rewrite <- EQ. now apply (Z3 u).
Qed.

Lemma c102_sum : forall o t xs vs r,
  signed_rep t -> 54 <= rbits t <= 1023 ->
  Forall2 (fun x v => is_finite 53 1024 x = true /\ to_fraction_double (denote o) t little x = Ok v) xs vs ->
  accumulate (denote o) t Plus (mkRaw 0 1) vs = Ok r -> Z.abs (num r) <= rmax t -> Z.abs (den r) <= rmax t ->
  exists y, to_double t r = Ok y /\ is_finite 53 1024 y = true /\ B2R 53 1024 y = to_nearest_double (real_sum xs).
Proof. exact sum_rounded. Qed.

Lemma c102_programs : forall o ty fuel s q c s' q' x p,
  output_canonical o = true -> wf_store ty s -> represents s q -> wf_s ty c ->
  exec (denote o) ty fuel s c = Some (Ok s') -> run fuel q c = Some q' -> q' x = Some p ->
  rmax (ty x) <= 2 ^ 1022 -> Z.abs (num (s' x)) <= rmax (ty x) ->
  exists y qy, to_double (ty x) (s' x) = Ok y /\ float_value y = Some qy /\
    (Qabs (qy - p) <= 4 * (2 # 1) ^ (-53) * Qabs p)%Q.
Proof.
  intros o ty fuel s q c s' q' x p C WS R WC E RU QX M N.
  destruct (c66_simulation o ty fuel s q c s' C WS R WC E) as (q2 & RU2 & R2 & WS2).
  assert (q2 = q') by congruence. subst q2. destruct (WS2 x) as (SR & WX & CX). pose proof (R2 x) as V. rewrite QX in V.
  destruct (value (s' x)) as [v|] eqn:VX; [|contradiction]. cbn [same_value] in V.
  assert (DX : Z.abs (den (s' x)) <= rmax (ty x)).
  { destruct CX as [CX|[CX _]]; [destruct CX as [_ CX]; rewrite CX; destruct SR as [W _]; pose proof (Machine_proofs.rmax_big (ty x) W); cbn; lia|].
    destruct WX as [_ WD]. apply Machine_proofs.in_rep_iff in WD. lia. }
  destruct (c65_relative_error (ty x) (s' x) v (proj1 SR) WX N DX VX) as (_ & G & _).
  destruct (G M) as (y & qy & Y1 & Y2 & Y3). exists y, qy. split; auto. split; auto.
  rewrite V in Y3. exact Y3.
Qed.

