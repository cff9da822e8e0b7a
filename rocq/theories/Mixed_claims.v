(** Proofs of the statements in Props_Mixed.v. *)

From Coq Require Import ZArith QArith List Bool Lia.
From Verif Require Import Machine Raw Ops Spec Fraction Fraction_spec Fmath Mixed Mixed_spec.
From Verif Require Import Machine_proofs Value_proofs Fmath_proofs Limits_proofs Literals_proofs Mixed_proofs Mixed2_proofs.
Import ListNotations.
Open Scope Z_scope.

Lemma c42_construction : forall o t w f m,
  signed_rep t -> in_rep t w = true -> wf_raw t f ->
  mixed_make (denote o) t t w f = Ok m ->
  normal_form m /\ same_value (mixed_value m) (sum_value w (value f)).
Proof.
  intros o t w f m S I A H.
  destruct (mixed_make_wide o t t w f m S S (Z.le_refl _) I A H) as [M [N [D X]]]. auto.
Qed.

Lemma c42_total : forall o t w f B,
  signed_rep t -> in_rep t w = true -> wf_raw t f -> value f <> None ->
  1 <= B -> raw_bounded B f -> grow 2 B <= rmax t -> Z.abs w + B + 1 <= rmax t ->
  exists m, mixed_make (denote o) t t w f = Ok m /\ normal_form m /\
    same_value (mixed_value m) (sum_value w (value f)).
Proof.
  intros o t w f B S I A D HB Bf G L.
  destruct (mixed_make_total o t t w f B S S I A D HB Bf G L) as [m H].
  exists m. split; auto. now apply (c42_construction o t w f m).
Qed.

Lemma c42_unsigned_total : forall o tw tf w f B,
  wf_rep tw -> wf_rep tf -> rsigned tw = false -> rsigned tf = false ->
  in_rep tw w = true -> wf_raw tf f -> value f <> None ->
  raw_bounded B f -> 2 * B * B <= rmax tf -> w + B <= rmax tw ->
  exists m, mixed_make (denote o) tw tf w f = Ok m /\ normal_form m /\
    same_value (mixed_value m) (sum_value w (value f)).
Proof. exact mixed_make_unsigned. Qed.

Lemma c43_from_fraction : forall o t f m,
  signed_rep t -> wf_raw t f -> mixed_of_fraction (denote o) t t t f = Ok m ->
  normal_form m /\
  exists q, value f = Some q /\ whole m = Qtrunc q /\ same_value (mixed_value m) (Some q).
Proof.
  intros o t f m S A H.
  assert (T : trunc_fits t f) by (eapply of_fraction_trunc_fits; eauto; lia).
  destruct (mixed_of_fraction_spec o t t t f m S S S A (Z.le_refl _) T H) as [M [N X]]. auto.
Qed.

Lemma c43_from_other_policy : forall o t f,
  mixed_of_other_fraction (denote o) t t t f = mixed_of_fraction (denote o) t t t f.
Proof.
  intros o t f. unfold mixed_of_other_fraction, f_convert, conv_raw.
  now rewrite Fraction_proofs.rep_eqb_refl.
Qed.

Lemma c43_round_trip : forall o t f m r,
  signed_rep t -> wf_raw t f -> mixed_of_fraction (denote o) t t t f = Ok m ->
  mixed_as_fraction (denote o) t t m = Ok r ->
  same_value (value r) (value f) /\ (output_canonical o = true -> canonical f -> r = f).
Proof. exact mixed_round_trip. Qed.

Lemma c43_as_fraction : forall o tw tf m r,
  signed_rep tw -> signed_rep tf -> wf_mixed tw tf m ->
  mixed_as_fraction (denote o) tw tf m = Ok r -> same_value (value r) (mixed_value m).
Proof. intros o tw tf m r SW SF M H. now apply (as_fraction_exact o tw tf m r). Qed.

Lemma c43_total : forall o t f B,
  signed_rep t -> wf_raw t f -> value f <> None -> 1 <= B -> raw_bounded B f -> 2 * B * B <= rmax t ->
  exists m, mixed_of_fraction (denote o) t t t f = Ok m.
Proof. intros o t f B S A D HB Bf G. apply (mixed_of_fraction_total o t t t f B); auto. nia. Qed.

Lemma c44_expressions_exact : forall o e m,
  wf_mexpr e -> meval (denote o) e = Ok m ->
  normal_form m /\ same_value (mixed_value m) (mdenotes e).
Proof. intros o e m W H. now apply (meval_exact o e m). Qed.

Lemma c44_value_determines : forall o1 o2 e1 e2 m1 m2,
  wf_mexpr e1 -> wf_mexpr e2 -> meval (denote o1) e1 = Ok m1 -> meval (denote o2) e2 = Ok m2 ->
  same_value (mdenotes e1) (mdenotes e2) ->
  whole m1 = whole m2 /\ same_value (value (fractional m1)) (value (fractional m2)).
Proof.
  intros o1 o2 e1 e2 m1 m2 W1 W2 H1 H2 E.
  destruct (meval_exact o1 e1 m1 W1 H1) as [_ [N1 X1]]. destruct (meval_exact o2 e2 m2 W2 H2) as [_ [N2 X2]].
  apply normal_unique; auto. eapply same_trans; [exact X1|]. eapply same_trans; [exact E|].
  now apply same_sym.
Qed.

Lemma c45_undefined_refuted : forall o tw tf to w f,
  wf_rep tf -> wf_rep to -> value f = None ->
  (wf_raw tf f -> exists u, mixed_make (denote o) tw tf w f = UB u) /\
  (exists u, mixed_of_fraction (denote o) tw tf to f = UB u).
Proof.
  intros o tw tf to w f W W' V. apply value_none_iff in V. split.
  - intros A. now apply mixed_make_undefined.
  - unfold mixed_of_fraction, f_trunc, m_div. rewrite V. cbn. eauto.
Qed.

Lemma c45_never_undefined : forall o e m,
  wf_mexpr e -> meval (denote o) e = Ok m -> mixed_value m <> None /\ mdenotes e <> None.
Proof.
  intros o e m W H. destruct (meval_exact o e m W H) as [_ [[q [V _]] X]].
  assert (N : mixed_value m <> None) by (unfold mixed_value; rewrite V; discriminate).
  split; auto. intros E. rewrite E in X. destruct (mixed_value m); [contradiction|congruence].
Qed.

Lemma c60_construction : forall o tw tf w f m,
  signed_rep tw -> signed_rep tf -> in_rep tw w = true -> wf_raw tf f ->
  (forall q, value f = Some q -> in_rep tw (Qtrunc q) = true) ->
  mixed_make (denote o) tw tf w f = Ok m ->
  normal_form m /\ same_value (mixed_value m) (sum_value w (value f)).
Proof.
  intros o tw tf w f m SW SF I A T H.
  destruct (mixed_make_spec o tw tf w f m SW SF I A T H) as [M [N [D X]]]. auto.
Qed.

Lemma c60_from_fraction : forall o tw tf to f m,
  signed_rep tw -> signed_rep tf -> signed_rep to -> wf_raw to f -> rbits to <= rbits tf ->
  (forall q, value f = Some q -> in_rep tw (Qtrunc q) = true) ->
  mixed_of_fraction (denote o) tw tf to f = Ok m ->
  normal_form m /\
  exists q, value f = Some q /\ whole m = Qtrunc q /\ same_value (mixed_value m) (Some q).
Proof.
  intros o tw tf to f m SW SF SO A L T H.
  destruct (mixed_of_fraction_spec o tw tf to f m SW SF SO A L T H) as [M [N X]]. auto.
Qed.

Lemma c60_narrow_whole_refuted : exists f m,
  wf_raw int64 f /\ mixed_make (denote defaults) int32 int64 0 f = Ok m /\
  ~ same_value (mixed_value m) (sum_value 0 (value f)).
Proof.
  exists (mkRaw 4294967297 1), (mkMixed 1 (mkRaw 0 1)).
  repeat split; try reflexivity. intros H. vm_compute in H. discriminate.
Qed.

Lemma c60_unsigned_fraction_refuted : exists f m,
  wf_raw uint32 f /\ mixed_make (denote safe_reduced_o) int32 uint32 (-1) f = Ok m /\
  ~ same_value (mixed_value m) (sum_value (-1) (value f)).
Proof.
  exists (mkRaw 1 2), (mkMixed 0 (mkRaw 4294967295 2)).
  repeat split; try reflexivity. intros H. vm_compute in H. discriminate.
Qed.

