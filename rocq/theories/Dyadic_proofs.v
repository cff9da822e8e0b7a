(** Lemmas on fractions with a power of two as denominator. *)

From Coq Require Import ZArith QArith Qabs Qreduction Qpower Qreals Reals List Lia Lra Psatz.
From Flocq Require Import Core Relative.
From Flocq Require Import IEEE754.BinarySingleNaN.
From Flocq Require Import IEEE754.Binary IEEE754.Bits.
From Verif Require Import Machine Raw Ops Spec Fraction Fraction_spec Float Float_spec Mixed_spec Sums_spec Dyadic_spec.
From Verif Require Import Machine_proofs Value_proofs Ops_proofs Tight_proofs Float_proofs Float2_proofs.
From Verif Require Defined_proofs.
Import ListNotations.
Open Scope Z_scope.

(** ** Dyadic rationals *)

Lemma pow2_Q : forall k, 0 <= k -> ~ (inject_Z (2 ^ k) == 0)%Q.
Proof. intros k K E. pose proof (pow2_pos k K). unfold Qeq, inject_Z in E. cbn in E. lia. Qed.

Lemma dyadic_int : forall z, dyadic (inject_Z z).
Proof. intros z. exists z, 0. split; [lia|]. cbn. now field. Qed.

Lemma dyadic_comp : forall p q, (p == q)%Q -> dyadic p -> dyadic q.
Proof. intros p q E (n & k & K & H). exists n, k. split; auto. now rewrite <- E. Qed.

Lemma dyadic_common : forall p q, dyadic p -> dyadic q -> exists a b k, 0 <= k /\
  (p == inject_Z a / inject_Z (2 ^ k))%Q /\ (q == inject_Z b / inject_Z (2 ^ k))%Q.
Proof.
  intros p q (a & k & K & A) (b & l & L & B). exists (a * 2 ^ l), (b * 2 ^ k), (k + l). split; [lia|].
  rewrite A, B, Z.pow_add_r, !inject_Z_mult by lia. pose proof (pow2_Q k K). pose proof (pow2_Q l L). split; field; auto.
Qed.

Lemma dyadic_opp : forall p, dyadic p -> dyadic (- p).
Proof. intros p (a & k & K & A). exists (- a), k. split; auto. rewrite A, inject_Z_opp. field. now apply pow2_Q. Qed.
Lemma dyadic_plus : forall p q, dyadic p -> dyadic q -> dyadic (p + q).
Proof.
  intros p q P Q. destruct (dyadic_common p q P Q) as (a & b & k & K & A & B).
  exists (a + b), k. split; auto. rewrite A, B, inject_Z_plus. field. now apply pow2_Q.
Qed.
Lemma dyadic_minus : forall p q, dyadic p -> dyadic q -> dyadic (p - q).
Proof. intros p q P Q. apply dyadic_plus; auto. now apply dyadic_opp. Qed.
Lemma dyadic_mult : forall p q, dyadic p -> dyadic q -> dyadic (p * q).
Proof.
  intros p q (a & k & K & A) (b & l & L & B). exists (a * b), (k + l). split; [lia|].
  rewrite A, B, Z.pow_add_r, !inject_Z_mult by lia. pose proof (pow2_Q k K). pose proof (pow2_Q l L). field; auto.
Qed.

Lemma dyadic_float : forall prec emax (x : binary_float prec emax) q, float_value x = Some q -> dyadic q.
Proof.
  intros prec emax [s|s|s pl H|s m e H] q V; try discriminate; cbn in V; injection V as <-.
  - apply (dyadic_int 0).
  - destruct (Z_le_gt_dec 0 e).
    + apply (dyadic_comp (inject_Z ((if s then Zneg m else Zpos m) * 2 ^ e))); [|apply dyadic_int].
      rewrite inject_Z_mult. now rewrite Qpow_Z by lia.
    + exists (if s then Zneg m else Zpos m), (- e). split; [lia|].
      rewrite Qpow_Z by lia. rewrite Qpower_opp. unfold Qdiv. now rewrite Qinv_involutive.
Qed.

(** In lowest terms the denominator is a power of two. *)
Lemma dyadic_den : forall q, dyadic q -> exists j, 0 <= j /\ Zpos (Qden (Qred q)) = 2 ^ j.
Proof.
  intros q (n & k & K & E). pose proof (pow2_pos k K) as P.
  assert (E2 : (q == n # Z.to_pos (2 ^ k))%Q).
  { rewrite E. rewrite qdiv_form by lia. unfold Qeq. cbn [Qnum Qden]. rewrite Z.sgn_pos, Z.abs_eq by lia. lia. }
  rewrite (Qred_complete _ _ E2).
  pose proof (Qred_correct (n # Z.to_pos (2 ^ k))) as C.
  assert (G : Z.gcd (Qnum (Qred (n # Z.to_pos (2 ^ k)))) (Zpos (Qden (Qred (n # Z.to_pos (2 ^ k))))) = 1).
  { exact (Defined_proofs.low_canonical (n # Z.to_pos (2 ^ k))). }
  destruct (Qred (n # Z.to_pos (2 ^ k))) as [a d]. cbn [Qnum Qden] in *. unfold Qeq in C. cbn [Qnum Qden] in C.
  rewrite Z2Pos.id in C by lia.
  assert (D : (Zpos d | 2 ^ k)).
  { apply (Z.gauss _ a); [exists n; lia|]. now rewrite Z.gcd_comm. }
  destruct (divides_pow2 53 1024 k (Zpos d) K ltac:(lia) D) as [j [J1 J2]]. exists j. split; [lia|auto].
Qed.

Lemma polynomial_dyadic : forall e q, polynomial e -> 
  Forall (fun v => forall p, value v = Some p -> dyadic p) (leaves e) -> denotes e = Some q -> dyadic q.
Proof.
  assert (O : forall op x y q, ring_op op -> dyadic x -> dyadic y -> exact op x y = Some q -> dyadic q).
  { intros op x y q [-> |[-> | ->]] X Y E; cbn in E; injection E as <-.
    - now apply dyadic_plus.
    - now apply dyadic_minus.
    - now apply dyadic_mult. }
  induction e as [r|e IH|e IH|op l IHl r IHr|op l IH z|op z r IH]; intros q P F D; cbn [polynomial leaves denotes] in *.
  - inversion F; subst. auto.
  - auto.
  - destruct (denotes e) as [x|]; [|discriminate]. cbn in D. injection D as <-. apply dyadic_opp. now apply (IH x).
  - destruct P as (P1 & P2 & P3). apply Forall_app in F. destruct F.
    destruct (denotes l) as [x|]; [|discriminate]. destruct (denotes r) as [y|]; [|discriminate]. cbn [exact_opt] in D.
    apply (O op x y); auto.
  - destruct P as (P1 & P2). destruct (denotes l) as [x|]; [|discriminate]. cbn [exact_opt] in D.
    apply (O op x (inject_Z z)); auto. apply dyadic_int.
  - destruct P as (P1 & P2). destruct (denotes r) as [x|]; [|discriminate]. cbn [exact_opt] in D.
    apply (O op (inject_Z z) x); auto. apply dyadic_int.
Qed.

(** ** Conversion *)

Section Format.
Variables prec emax : Z.
Variable Hprec : Prec_gt_0 prec.
Variable Hmax : Prec_lt_emax prec emax.
Variable nan : { x : binary_float prec emax | is_nan prec emax x = true }.
Let float := binary_float prec emax.
Let emin := 3 - emax - prec.
Let fexp := FLT_exp emin prec.
Let rnd := round radix2 fexp ZnearestE.
Let conv := fraction_to_floating_point prec emax Hprec Hmax nan.

Local Instance valid_fexp_d : Valid_exp fexp := FLT_exp_valid emin prec.
Local Instance valid_rnd_d : Valid_rnd ZnearestE := valid_rnd_N _.

(** Away from the subnormal numbers rounding commutes with powers of two. *)
Lemma rnd_scale : forall x k, (1 <= Rabs x)%R -> 0 <= k <= emax - 2 -> rnd (x * bpow radix2 (- k)) = (rnd x * bpow radix2 (- k))%R.
Proof.
  intros x k X K. pose proof (sizes prec emax Hprec Hmax) as SZ.
  assert (X0 : x <> 0%R) by (intros ->; rewrite Rabs_R0 in X; lra).
  assert (M : 1 <= mag radix2 x).
  { apply mag_ge_bpow. rewrite Z.sub_diag. exact X. }
  assert (C : cexp radix2 fexp (x * bpow radix2 (- k)) = cexp radix2 fexp x - k).
  { unfold cexp. rewrite mag_mult_bpow by auto. unfold fexp, FLT_exp, emin.
    rewrite !Z.max_l by lia. lia. }
  unfold rnd, round, F2R, scaled_mantissa. cbn [Fnum Fexp]. rewrite C.
  replace (x * bpow radix2 (- k) * bpow radix2 (- (cexp radix2 fexp x - k)))%R with (x * bpow radix2 (- cexp radix2 fexp x))%R.
  - rewrite Rmult_assoc, <- bpow_plus. reflexivity.
  - rewrite Rmult_assoc, <- bpow_plus. do 2 f_equal. lia.
Qed.

Lemma rnd_integer : forall z k, 0 <= k <= emax - 2 -> rnd (IZR z * bpow radix2 (- k)) = (rnd (IZR z) * bpow radix2 (- k))%R.
Proof.
  intros z k K. destruct (Z.eq_dec z 0) as [->|NZ].
  - rewrite Rmult_0_l. unfold rnd. rewrite round_0 by typeclasses eauto. ring.
  - apply rnd_scale; auto. rewrite <- abs_IZR. apply IZR_le. lia.
Qed.

Theorem conv_dyadic : forall t v q, wf_rep t -> wf_raw t v -> Z.abs (num v) <= rmax t -> Z.abs (den v) <= rmax t ->
  rmax t <= 2 ^ (emax - 2) -> value v = Some q -> dyadic q ->
  exists x, conv t v = Ok x /\ is_finite prec emax x = true /\ B2R prec emax x = rnd (Q2R q).
Proof.
  intros t v q W WV N D M V DQ. pose proof (sizes prec emax Hprec Hmax) as SZ.
  assert (M1 : rmax t <= 2 ^ (emax - 1)) by (pose proof (pow2_le (emax - 2) (emax - 1) ltac:(lia)); lia).
  destruct (conv_shape prec emax Hprec Hmax nan t v q W WV N D M1 V) as (x & X1 & X2 & X3 & X4 & X5).
  exists x. split; auto. split; auto. rewrite X3.
  destruct (dyadic_den q DQ) as (j & J & EJ).
  assert (J2 : j <= emax - 2).
  { destruct (Z_le_gt_dec j (emax - 2)); auto. pose proof (pow2_lt (emax - 2) j ltac:(lia)). lia. }
  assert (ED : exactly_representable prec (Zpos (Qden (Qred q)))).
  { exists 1, j. rewrite EJ. split; auto. split; [lia|]. change (Z.abs 1) with (2 ^ 0). apply pow2_lt. lia. }
  rewrite (int_exact prec emax Hprec Hmax _ ED). rewrite EJ, (IZR_Zpower radix2) by auto.
  assert (E : forall y, (y / bpow radix2 j = y * bpow radix2 (- j))%R) by (intros; now rewrite bpow_opp).
  assert (G : Q2R q = (IZR (Qnum (Qred q)) * bpow radix2 (- j))%R).
  { rewrite Q2R_red at 1. rewrite EJ, (IZR_Zpower radix2) by auto. apply E. }
  rewrite E, G. pose proof (rnd_integer (Qnum (Qred q)) j ltac:(lia)) as RI.
  unfold rnd, fexp, emin in RI |- *. rewrite <- RI. fold emin. fold fexp. apply round_generic; [typeclasses eauto|]. apply generic_format_round; typeclasses eauto.
Qed.

Theorem conv_dyadic_nearest : forall t v q, wf_rep t -> wf_raw t v -> Z.abs (num v) <= rmax t -> Z.abs (den v) <= rmax t ->
  rmax t <= 2 ^ (emax - 2) -> value v = Some q -> dyadic q ->
  exists x qx, conv t v = Ok x /\ float_value x = Some qx /\
    forall (y : float) qy, float_value y = Some qy -> (Qabs (qx - q) <= Qabs (qy - q))%Q.
Proof.
  intros t v q W WV N D M V DQ. destruct (conv_dyadic t v q W WV N D M V DQ) as [x [X1 [X2 X3]]].
  destruct (finite_value prec emax x X2) as [qx QX]. exists x, qx. split; auto. split; auto.
  intros y qy QY. destruct (float_value_R prec emax x qx QX) as [RX _]. destruct (float_value_R prec emax y qy QY) as [RY _].
  apply Rle_Qle. rewrite !Q2R_abs, !Q2R_minus, <- RX, <- RY, X3.
  destruct (round_N_pt radix2 fexp (fun x => negb (Z.even x)) (Q2R q)) as [_ G]. apply G.
  apply generic_format_B2R.
Qed.
End Format.

(** ** Sums *)

From Verif Require Import Sums Sums_proofs Fraction_claims Float_claims Float5_proofs.

Lemma exact_sum : forall vs xs acc a,
  Forall2 (fun (x : binary64) v => exists p, float_value x = Some p /\ same_value (value v) (Some p)) xs vs ->
  denotes acc = Some a ->
  exists q, denotes (left_tree Plus acc vs) = Some q /\ Q2R q = (Q2R a + real_sum xs)%R.
Proof.
  induction vs as [|v vs IH]; intros xs acc a F D; inversion F as [|x v' xs' vs' H F' E1 E2]; subst.
  - exists a. split; auto. unfold real_sum. cbn. ring.
  - destruct H as (p & P & S). destruct (value v) as [w|] eqn:V; [|contradiction]. cbn [same_value] in S.
    destruct (IH xs' (Bin Plus acc (Leaf v)) (a + w)%Q F') as (q & Q1 & Q2).
    { cbn [denotes]. rewrite D, V. reflexivity. }
    exists q. split; [exact Q1|]. rewrite Q2, Q2R_plus, (Qeq_eqR _ _ S).
    destruct (float_value_R 53 1024 x p P) as [B _]. rewrite <- B. unfold real_sum. cbn. ring.
Qed.

Lemma tree_polynomial : forall vs acc, polynomial acc -> polynomial (left_tree Plus acc vs).
Proof.
  induction vs as [|v vs IH]; intros acc P; cbn [left_tree fold_left]; auto.
  apply IH. cbn. unfold ring_op. auto.
Qed.

Lemma double_leaves : forall o t xs vs, signed_rep t -> 54 <= rbits t <= 1024 ->
  Forall2 (fun x v => is_finite 53 1024 x = true /\ to_fraction_double (denote o) t little x = Ok v) xs vs ->
  Forall2 (fun (x : binary64) v => exists p, float_value x = Some p /\ same_value (value v) (Some p)) xs vs /\
  Forall (fun v => forall p, value v = Some p -> dyadic p) vs /\ Forall (wf_raw t) vs.
Proof.
  intros o t xs vs S B F. induction F as [|x v xs vs [FX TF] F (IH1 & IH2 & IH3)]; [repeat split; constructor|].
  destruct (finite_value 53 1024 x FX) as [p P].
  pose proof (c38_double_exact o t x v S B TF) as E. rewrite P in E.
  repeat split; constructor; eauto.
  - intros w Wv. rewrite Wv in E. cbn [same_value] in E. apply (dyadic_comp p); [now symmetry|]. eapply dyadic_float; eauto.
  - exact (of_float_wf o t 8 52 11 _ v (proj1 S) TF).
Qed.

Theorem sum_rounded : forall o t xs vs r, signed_rep t -> 54 <= rbits t <= 1023 ->
  Forall2 (fun x v => is_finite 53 1024 x = true /\ to_fraction_double (denote o) t little x = Ok v) xs vs ->
  accumulate (denote o) t Plus (mkRaw 0 1) vs = Ok r -> Z.abs (num r) <= rmax t -> Z.abs (den r) <= rmax t ->
  exists y, to_double t r = Ok y /\ is_finite 53 1024 y = true /\ B2R 53 1024 y = to_nearest_double (real_sum xs).
Proof.
  intros o t xs vs r S B F A NR DR. pose proof S as [W SG].
  destruct (double_leaves o t xs vs S ltac:(lia) F) as (F1 & F2 & F3).
  assert (WZ : wf_raw t (mkRaw 0 1)).
  { split; apply in_rep_iff; cbn [num den]; pose proof (rmax_big t W); pose proof (rmin_nonpos t W); lia. }
  destruct (left_tree_facts Plus vs (Leaf (mkRaw 0 1)) t) as (L1 & L2 & L3); cbn [only_op wf_expr]; auto.
  destruct (exact_sum vs xs (Leaf (mkRaw 0 1)) 0%Q F1) as (q & Q1 & Q2); [reflexivity|].
  assert (EV : eval (denote o) t (left_tree Plus (Leaf (mkRaw 0 1)) vs) = Ok r) by (rewrite accumulate_tree; exact A).
  destruct (c55_expression_exact_any_policy o t _ r q W SG L2 Q1 EV) as (q' & V & E).
  assert (DY : dyadic q').
  { apply (dyadic_comp q); [now symmetry|]. apply (polynomial_dyadic (left_tree Plus (Leaf (mkRaw 0 1)) vs)); auto.
    - apply tree_polynomial. exact I.
    - rewrite L3. cbn [leaves]. apply Forall_app. split; auto. constructor; [|constructor].
      intros p P. cbn in P. injection P as <-. apply (dyadic_int 0). }
  assert (WR : wf_raw t r).
  { apply (Defined_proofs.bounded_wf t r S). now split. }
  destruct (conv_dyadic 53 1024 eq_refl eq_refl default_nan_pl64 t r q' W WR NR DR) as (y & Y1 & Y2 & Y3); auto.
  { rewrite (rmax_signed t S). pose proof (pow2_le (rbits t - 1) 1022 ltac:(lia)) as P. change (1024 - 2) with 1022. lia. }
  exists y. split; [exact Y1|]. split; auto. rewrite Y3. unfold to_nearest_double. rewrite (Qeq_eqR _ _ E), Q2.
  replace (Q2R 0) with 0%R by (unfold Q2R; cbn; lra). rewrite Rplus_0_l. reflexivity.
Qed.
