(** Proofs of the statements in Props_Chrono4.v. *)

From Coq Require Import ZArith QArith List Bool Lia Lqa.
From Verif Require Import Machine Raw Ops Spec Fraction Mixed_spec Limits Chrono Chrono_spec Chrono2 Defined_spec Chrono3_spec.
From Verif Require Import Machine_proofs Value_proofs Fmath_proofs Limits_proofs Literals_proofs Chrono_proofs Defined_proofs Chrono3_proofs Chrono4_proofs.
Import ListNotations.
Open Scope Z_scope.

Lemma c86_zero_neutral : forall t pd c q, signed_rep t -> 64 <= rbits t -> wf_period pd -> count_bounded (rmax t) c -> count_value c = Some q ->
  exists x, duration_arith (denote defaults) t Plus pd pd c (FracCount duration_zero) = Some (pd, Ok x) /\
    same_value (value x) (Some q) /\ canonical x.
Proof.
  intros t pd c q SR L WP BC VC. destruct (plus_zero_total t pd c q SR WP BC VC) as [x H]. exists x. split; auto.
  pose proof SR as [W S].
  assert (WC : wf_count t c).
  { destruct c as [s z|r]; cbn in *; [destruct BC; split; auto; now apply Tight_proofs.abs_fits|now apply bounded_wf]. }
  assert (WZ : wf_count t (FracCount duration_zero)).
  { unfold duration_zero. apply int_raw_ok; auto. apply Tight_proofs.abs_fits; auto. cbn. pose proof (rmax_big t W). lia. }
  split.
  - pose proof (duration_arith_exact defaults t Plus pd pd c (FracCount duration_zero) pd x SR WP WP WC WZ (or_introl eq_refl) L H) as X.
    rewrite VC in X. cbn [count_value] in X. unfold duration_zero in X. destruct (int_value 0) as [z [VZ QZ]]. rewrite VZ in X.
    destruct (value x) as [v|]; cbn in X |- *; [|contradiction].
    pose proof (period_pos pd WP) as P. rewrite QZ in X. change (inject_Z 0) with 0%Q in X. nra.
  - destruct (Chrono2_proofs.arith_casts _ _ _ _ _ _ _ _ _ H) as [a [b [_ [HA [HB HX]]]]]. rewrite Fraction_proofs.f_arith_self in HX.
    destruct (same_period pd WP) as [_ F].
    assert (HC : forall k, duration_cast (denote defaults) t pd pd k = Some (Ok (to_cr t k))).
    { intros k. unfold duration_cast. rewrite (ratio_divide_is _ _ _ _ WP WP F). reflexivity. }
    rewrite HC in HA, HB. injection HA as <-. injection HB as <-.
    apply (Algebra_proofs.denote_canonical defaults t Plus (RR (to_cr t c) (to_cr t (FracCount duration_zero))) x W); auto.
    split; now apply to_cr_ok.
Qed.

Lemma c86_zero_sign : forall t pd c q, signed_rep t -> 64 <= rbits t -> wf_period pd -> count_bounded (rmax t) c -> count_value c = Some q ->
  exists b1 b2, duration_lt (denote defaults) t pd pd c (FracCount duration_zero) = Some (Ok b1) /\
    duration_lt (denote defaults) t pd pd (FracCount duration_zero) c = Some (Ok b2) /\
    (b1 = true <-> (q < 0)%Q) /\ (b2 = true <-> (0 < q)%Q).
Proof.
  intros t pd c q SR L WP BC VC. pose proof SR as [W S].
  pose proof (rmax_big t W) as RB.
  destruct (with_int_cmp t pd c q SR WP BC VC 0 ltac:(cbn; lia)) as [[_ A] [_ B]].
  destruct A as [b1 H1]; [lia|]. destruct B as [b2 H2]; [lia|]. exists b1, b2. split; auto. split; auto.
  assert (WC : wf_count t c).
  { destruct c as [s z|r]; cbn in *; [destruct BC; split; auto; now apply Tight_proofs.abs_fits|now apply bounded_wf]. }
  assert (WZ : wf_count t (FracCount (f_of_int 0))).
  { apply int_raw_ok; auto. apply Tight_proofs.abs_fits; auto. cbn. lia. }
  destruct (int_value 0) as [z [VZ QZ]]. change (inject_Z 0) with 0%Q in QZ. pose proof (period_pos pd WP) as P.
  assert (SC : seconds (count_value c) pd = Some (q * period_value pd)%Q) by now rewrite VC.
  assert (SZ : seconds (count_value (FracCount (f_of_int 0))) pd = Some (z * period_value pd)%Q) by (cbn [count_value]; now rewrite VZ).
  rewrite (duration_lt_exact defaults t pd pd _ _ b1 _ _ SR WP WP WC WZ L (or_introl eq_refl) SC SZ H1).
  rewrite (duration_lt_exact defaults t pd pd _ _ b2 _ _ SR WP WP WZ WC L (or_introl eq_refl) SZ SC H2).
  rewrite QZ. split; split; intros X; nra.
Qed.

Lemma c86_bounds : forall o t pd c q, signed_rep t -> 64 <= rbits t -> wf_period pd -> wf_count t c -> count_value c = Some q ->
  built_on_safe o = true \/ normalises_inputs o = true ->
  duration_lt (denote o) t pd pd c (FracCount (duration_min t)) <> Some (Ok true) /\
  (c <> FracCount (mkRaw (rmin t) (-1)) ->
   duration_lt (denote o) t pd pd (FracCount (duration_max t)) c <> Some (Ok true)).
Proof.
  intros o t pd c q SR L WP WC VC HO. pose proof SR as [W S]. pose proof (period_pos pd WP) as P.
  pose proof (rmax_big t W) as RB. pose proof (rmin_rmax_signed t S) as RM.
  destruct (to_cr_ok t c W S WC) as [WK VK]. rewrite VC in VK.
  destruct (value (to_cr t c)) as [k|] eqn:EK; [|contradiction]. cbn in VK.
  assert (SC : seconds (count_value c) pd = Some (q * period_value pd)%Q) by now rewrite VC.
  assert (IM : forall z, in_rep t z = true -> wf_count t (FracCount (f_of_int z))) by (intros z Z1; now apply int_raw_ok).
  split.
  - intros H. unfold duration_min, nl_lowest, limits_min in H. destruct (int_value (rmin t)) as [m [VM QM]].
    assert (SM : seconds (count_value (FracCount (f_of_int (rmin t)))) pd = Some (m * period_value pd)%Q) by (cbn [count_value]; now rewrite VM).
    pose proof (duration_lt_exact o t pd pd _ _ true _ _ SR WP WP WC (IM (rmin t) ltac:(apply in_rep_iff; lia)) L HO SC SM H) as X.
    destruct X as [X _]. specialize (X eq_refl).
    pose proof (limits_lower t (to_cr t c) k W WK EK) as B. rewrite VK in B. rewrite QM in X. nra.
  - intros NC H. unfold duration_max, nl_max, limits_max in H. destruct (int_value (rmax t)) as [m [VM QM]].
    assert (SM : seconds (count_value (FracCount (f_of_int (rmax t)))) pd = Some (m * period_value pd)%Q) by (cbn [count_value]; now rewrite VM).
    pose proof (duration_lt_exact o t pd pd _ _ true _ _ SR WP WP (IM (rmax t) ltac:(apply in_rep_iff; lia)) WC L HO SM SC H) as X.
    destruct X as [X _]. specialize (X eq_refl).
    assert (N : ~ (rsigned t = true /\ to_cr t c = mkRaw (rmin t) (-1))).
    { intros [_ E]. destruct c as [s z|r]; cbn in E; [unfold f_of_int in E; injection E as _ E; discriminate|]. now subst r. }
    pose proof (limits_upper t (to_cr t c) k W WK EK N) as B. rewrite VK in B. rewrite QM in X. nra.
Qed.

Lemma c86_max_defined_iff : forall t pd c q, signed_rep t -> wf_period pd -> count_bounded (rmax t) c -> count_value c = Some q ->
  ((exists v, duration_lt (denote defaults) t pd pd c (FracCount (duration_max t)) = Some (Ok v)) <-> low_den q = 1) /\
  ((exists v, duration_lt (denote defaults) t pd pd (FracCount (duration_max t)) c = Some (Ok v)) <-> low_den q = 1).
Proof.
  intros t pd c q SR WP BC VC. pose proof (rmax_big t (proj1 SR)) as RB. pose proof (low_den_pos q) as P.
  destruct (with_int_cmp t pd c q SR WP BC VC (rmax t) ltac:(lia)) as [A B].
  unfold duration_max, nl_max, limits_max. rewrite A, B. split; split; intros; nia.
Qed.

Lemma c86_min_undefined : forall t pd c, signed_rep t -> wf_period pd ->
  (exists u, duration_lt (denote defaults) t pd pd c (FracCount (duration_min t)) = Some (UB u)) /\
  (exists u, duration_lt (denote defaults) t pd pd (FracCount (duration_min t)) c = Some (UB u)).
Proof. exact min_ub. Qed.

Lemma c86_limits_refuted : exists c q u, count_bounded (rmax int64) c /\ count_value c = Some q /\
  duration_lt (denote defaults) int64 (mkPeriod 1 1) (mkPeriod 1 1) c (FracCount (duration_max int64)) = Some (UB u).
Proof.
  exists (FracCount (mkRaw 1 2)), (1 # 2)%Q, Overflow. split; [split; vm_compute; discriminate|]. split; vm_compute; reflexivity.
Qed.

