(** When queries and unary operations are defined. *)

From Coq Require Import ZArith QArith List Bool Lia.
From Verif Require Import Machine Raw Ops Spec Fraction Fmath Mixed_spec Unary_spec.
From Verif Require Import Machine_proofs Value_proofs Ops_proofs Algebra_proofs Tight_proofs Fraction_proofs Fmath_proofs Defined_proofs.
Open Scope Z_scope.

Lemma no_min_abs : forall t x, signed_rep t -> in_rep t x = true -> x <> rmin t <-> Z.abs x <= rmax t.
Proof.
  intros t x SR I. pose proof SR as [W S]. apply range_iff in I; auto. rewrite (rmin_rmax_signed t S).
  pose proof (rmax_big t W). lia.
Qed.

Lemma no_min_bounded : forall t v, signed_rep t -> wf_raw t v ->
  no_minimum t v <-> Z.abs (num v) <= rmax t /\ Z.abs (den v) <= rmax t.
Proof. intros t v SR [A B]. unfold no_minimum. rewrite !no_min_abs by auto. tauto. Qed.

Lemma abs_fits_iff : forall t x, signed_rep t -> in_rep t x = true -> in_rep t (Z.abs x) = true <-> x <> rmin t.
Proof. intros t x SR I. rewrite no_min_abs by auto. rewrite range_iff by auto. destruct SR as [W S]. pose proof (rmax_big t W). lia. Qed.

Lemma gcd_iff : forall t m n, signed_rep t -> in_rep t m = true -> in_rep t n = true ->
  ok (std_gcd t m n) <-> m <> rmin t /\ n <> rmin t.
Proof.
  intros t m n SR IM IN. rewrite <- (abs_fits_iff t m), <- (abs_fits_iff t n) by auto. unfold std_gcd.
  destruct (in_rep t (Z.abs m)), (in_rep t (Z.abs n)); cbn [andb]; split; try (intros [? ?]; discriminate); try tauto; try (intros [? ?]; discriminate).
  intros _. now eexists.
Qed.

Lemma bind_ok : forall A B (x : res A) (f : A -> B), ok (do a <- x; Ok (f a)) <-> ok x.
Proof. intros A B [a|u] f; cbn [bind]; split; intros [y E]; try discriminate; eexists; reflexivity. Qed.

Lemma ok_ok : forall A (a : A), ok (Ok a).
Proof. intros. now eexists. Qed.

Lemma rem_iff : forall t a b, signed_rep t -> in_rep t a = true -> b <> 0 ->
  ok (m_rem t a b) <-> ~ (a = rmin t /\ b = -1).
Proof.
  intros t a b SR I NB. pose proof SR as [W S]. unfold m_rem. destruct (Z.eqb_spec b 0); [contradiction|].
  rewrite bind_ok, arith_iff by auto. pose proof (quot_range t a b SR (proj1 (range_iff t a SR) I) NB) as Q.
  rewrite (rmin_rmax_signed t S). rewrite <- Q. destruct (in_rep t (Z.quot a b)); split; intros; auto using ok_ok; try discriminate.
  destruct H. discriminate.
Qed.

Lemma is_unit_iff : forall t v, signed_rep t -> wf_raw t v ->
  ok (is_unit_fraction t v) <-> ~ (num v = -1 /\ den v = rmin t).
Proof.
  intros t v SR [IN ID]. unfold is_unit_fraction. pose proof SR as [W S].
  pose proof (rmin_rmax_signed t S) as M. pose proof (rmax_big t W).
  unfold is_defined. destruct (Z.eqb_spec (den v) 0) as [D|D]; cbn [negb andb]; [split; auto using ok_ok; lia|].
  destruct (Z.eqb_spec (num v) 0) as [N|N]; cbn [negb]; [split; auto using ok_ok; lia|].
  rewrite bind_ok, rem_iff by auto. tauto.
Qed.

Lemma reduced_ignore_iff : forall t v, signed_rep t -> wf_raw t v ->
  ok (is_reduced_ignore_signs t v) <-> den v = 0 \/ no_minimum t v.
Proof.
  intros t v SR [IN ID]. unfold is_reduced_ignore_signs, is_defined.
  destruct (Z.eqb_spec (den v) 0) as [D|D]; cbn [negb]; [split; auto using ok_ok|].
  rewrite bind_ok, gcd_iff by auto. unfold no_minimum. tauto.
Qed.

Lemma is_reduced_iff : forall t v, signed_rep t -> wf_raw t v ->
  ok (is_reduced t v) <-> den v = 0 \/ no_minimum t v \/ num v <= 0 /\ den v < 0.
Proof.
  intros t v SR WV. unfold is_reduced. rewrite !Z.gtb_ltb.
  destruct (Z.ltb_spec 0 (num v)); cbn [orb].
  - rewrite reduced_ignore_iff by auto. split; [tauto|]. intros [?|[?|?]]; auto. lia.
  - destruct (Z.ltb_spec 0 (den v)).
    + rewrite reduced_ignore_iff by auto. split; [tauto|]. intros [?|[?|?]]; auto. lia.
    + split; auto using ok_ok. intros _. lia.
Qed.

Lemma mu_abs_iff : forall t x, signed_rep t -> in_rep t x = true -> ok (mu_abs t x) <-> x <> rmin t.
Proof.
  intros t x SR I. pose proof SR as [W S]. rewrite no_min_abs by auto. unfold mu_abs. rewrite Z.geb_leb.
  pose proof (proj1 (range_iff t x SR) I).
  destruct (Z.leb_spec 0 x); [split; auto using ok_ok; lia|].
  unfold m_neg. rewrite arith_iff by auto. pose proof (range_iff t (- x) SR) as R.
  destruct (in_rep t (- x)); split; auto using ok_ok.
  - intros _. apply proj1 in R. specialize (R eq_refl). lia.
  - intros [? ?]. discriminate.
  - intros K. assert (false = true); [apply R; lia|discriminate].
Qed.

Lemma is_proper_iff : forall t v, signed_rep t -> wf_raw t v -> ok (is_proper t v) <-> no_minimum t v.
Proof.
  intros t v SR [IN ID]. unfold is_proper, no_minimum. rewrite <- (mu_abs_iff t (num v)), <- (mu_abs_iff t (den v)) by auto.
  destruct (mu_abs t (num v)), (mu_abs t (den v)); cbn [bind]; split; auto using ok_ok; try (intros [? ?]; discriminate);
    intros [[? A] [? B]]; discriminate.
Qed.

Lemma is_improper_iff : forall t v, signed_rep t -> wf_raw t v -> ok (is_improper t v) <-> no_minimum t v.
Proof. intros t v SR WV. unfold is_improper. rewrite bind_ok. now apply is_proper_iff. Qed.

Lemma neg_iff : forall t x, signed_rep t -> in_rep t x = true -> ok (m_neg t x) <-> x <> rmin t.
Proof.
  intros t x SR I. pose proof SR as [W S]. rewrite no_min_abs by auto.
  pose proof (proj1 (range_iff t x SR) I).
  unfold m_neg. rewrite arith_iff by auto. pose proof (range_iff t (- x) SR) as R.
  destruct (in_rep t (- x)); split; auto using ok_ok.
  - intros _. apply proj1 in R. specialize (R eq_refl). lia.
  - intros [? ?]. discriminate.
  - intros K. assert (false = true); [apply R; lia|discriminate].
Qed.

Lemma normalize_iff : forall t v, signed_rep t -> wf_raw t v ->
  ok (normalize_signs t v) <-> 0 < den v \/ no_minimum t v.
Proof.
  intros t v SR [IN ID]. unfold normalize_signs. rewrite Z.gtb_ltb.
  destruct (Z.ltb_spec 0 (den v)); [split; auto using ok_ok|].
  unfold no_minimum. rewrite <- (neg_iff t (num v)), <- (neg_iff t (den v)) by auto.
  destruct (m_neg t (num v)), (m_neg t (den v)); cbn [bind];
    (split; [intros [? E]; (discriminate || (right; split; apply ok_ok))|
             intros [?|[[? A] [? B]]]; [lia|(discriminate || apply ok_ok)]]).
Qed.

Lemma reduce_any_iff : forall t v m, signed_rep t -> wf_raw t v ->
  ok (reduce t v m) <-> den v = 0 \/ no_minimum t v.
Proof.
  intros t v m SR WV. rewrite (no_min_bounded t v SR WV). pose proof SR as [W S].
  destruct m; [now apply reduce_iff|]. split.
  - intros [r R]. destruct (reduce_spec _ _ _ _ W WV R) as [_ [_ B]].
    destruct (Z.eq_dec (den v) 0); auto.
  - intros [Z0|[A B]].
    + exists (mkRaw 0 0). now apply reduce_undefined.
    + now apply reduce_total.
Qed.

(** ** Unary minus *)

Lemma base_negate_iff : forall o t v, signed_rep t -> wf_raw t v -> plain o = true ->
  ok (p_negate (denote o) t v) <-> num v <> rmin t.
Proof.
  intros o t v SR [IN ID] P. destruct o; try discriminate;
    cbn [denote safe fast p_negate]; unfold safe_negate, fast_negate; rewrite bind_ok; now apply neg_iff.
Qed.

Lemma reduced_bounded : forall t v r, signed_rep t -> wf_raw t v -> den v = 0 \/ no_minimum t v ->
  reduce t v normalize_signs_mode = Ok r -> wf_raw t r /\ raw_bounded (rmax t) r.
Proof.
  intros t v r SR WV C R. pose proof SR as [W S]. destruct (reduce_spec _ _ _ _ W WV R) as [WR [RT B]]. split; auto.
  destruct (Z.eq_dec (den v) 0) as [Z0|Z0].
  - rewrite (reduce_undefined t v normalize_signs_mode) in R by auto. injection R as <-.
    pose proof (rmax_big t W). split; cbn [num den]; lia.
  - pose proof (reduces_bound _ _ _ RT) as [Bn Bd]. specialize (B Z0). split; lia.
Qed.

Lemma negate_reduced_iff : forall o t v, signed_rep t -> wf_raw t v -> reduces_inputs o = true ->
  ok (p_negate (denote o) t v) <-> den v = 0 \/ no_minimum t v.
Proof.
  intros o t v SR WV RI. pose proof SR as [W S]. revert RI. induction o as [| |o IH m|o IH m]; intros RI; try discriminate;
    cbn [reduces_inputs] in RI; cbn [denote reduced_input reduced_output p_negate]; unfold ri_negate, ro_negate.
  - rewrite <- (reduce_any_iff t v normalize_signs_mode SR WV).
    destruct (reduce t v normalize_signs_mode) as [r|] eqn:R; cbn [bind]; [|tauto]. split; [intros; apply ok_ok|intros _].
    assert (C : den v = 0 \/ no_minimum t v) by (apply (reduce_any_iff t v normalize_signs_mode SR WV); rewrite R; apply ok_ok).
    destruct (reduced_bounded t v r SR WV C R) as [WR B]. destruct (negate_total o t r W S WR B) as [x [X _]]. now exists x.
  - specialize (IH RI). rewrite <- IH. destruct (p_negate (denote o) t v) as [r|] eqn:N; cbn [bind]; [|tauto].
    split; [intros; apply ok_ok|intros _].
    assert (C : den v = 0 \/ no_minimum t v) by (apply IH; apply ok_ok).
    pose proof (negate_wf o t v r W WV N) as WR.
    apply reduce_any_iff; auto. destruct C as [C|C].
    + left. pose proof (denote_negate_undef o t v r W WV (value_undefined v C) N) as V.
      destruct (Z.eq_dec (den r) 0) as [E|E]; auto. rewrite value_defined in V by auto. discriminate.
    + right. apply (no_min_bounded t v SR WV) in C.
      destruct (negate_total o t v W S WV C) as [x [X [_ BX]]]. rewrite N in X. injection X as <-.
      apply no_min_bounded; auto.
Qed.

Lemma negate_output_iff : forall o t v, signed_rep t -> wf_raw t v -> reduces_inputs o = false -> plain o = false ->
  ok (p_negate (denote o) t v) <-> num v <> rmin t /\ (den v = 0 \/ den v <> rmin t).
Proof.
  intros o t v SR WV RI PL. pose proof SR as [W S]. pose proof (rmin_rmax_signed t S) as RM. pose proof (rmax_big t W) as MX.
  assert (KN : ok (p_negate (denote o) t v) -> num v <> rmin t).
  { clear PL. revert RI. induction o as [| |o IH m|o IH m]; intros RI H; try discriminate.
    - now apply (base_negate_iff Safe t v).
    - now apply (base_negate_iff Fast t v).
    - cbn [reduces_inputs] in RI. apply IH; auto. cbn [denote reduced_output p_negate] in H. unfold ro_negate in H.
      destruct (p_negate (denote o) t v); [apply ok_ok|destruct H; discriminate]. }
  assert (KD : ok (p_negate (denote o) t v) -> den v <> rmin t).
  { clear KN. revert RI PL. induction o as [| |o IH m|o IH m]; intros RI PL H; try discriminate.
    cbn [reduces_inputs denote reduced_output p_negate] in *. unfold ro_negate in H.
    destruct (p_negate (denote o) t v) as [r|] eqn:N; [|destruct H; discriminate]. cbn [bind] in H.
    destruct (plain o) eqn:PO; [|apply IH; auto using ok_ok].
    pose proof (negate_wf o t v r W WV N) as WR.
    apply (reduce_any_iff t r m SR WR) in H.
    assert (E : den r = den v).
    { destruct o; try discriminate; cbn [denote safe fast p_negate] in N; unfold safe_negate, fast_negate in N;
        destruct (m_neg t (num v)); try discriminate; cbn [bind] in N; now injection N as <-. }
    rewrite E in H. destruct H as [H|[_ H]]; [lia|congruence]. }
  split; [intros H; split; auto|].
  intros [NN DD]. destruct (Z.eq_dec (den v) 0) as [Z0|Z0].
  - clear KN KD PL DD. revert RI. induction o as [| |o IH m|o IH m]; intros RI; try discriminate.
    + now apply (base_negate_iff Safe t v).
    + now apply (base_negate_iff Fast t v).
    + cbn [reduces_inputs denote reduced_output p_negate] in *. unfold ro_negate.
      destruct (IH RI) as [r N]. rewrite N. cbn [bind].
      pose proof (negate_wf o t v r W WV N) as WR.
      apply reduce_any_iff; auto. left.
      pose proof (denote_negate_undef o t v r W WV (value_undefined v Z0) N) as V.
      destruct (Z.eq_dec (den r) 0) as [E|E]; auto. rewrite value_defined in V by auto. discriminate.
  - assert (B : raw_bounded (rmax t) v) by (apply (no_min_bounded t v SR WV); split; tauto).
    destruct (negate_total o t v W S WV B) as [x [X _]]. now exists x.
Qed.

Theorem abs_iff : forall o t v, signed_rep t -> wf_raw t v ->
  ok (f_abs (denote o) t v) <-> is_non_negative v = true \/ ok (p_negate (denote o) t v).
Proof.
  intros o t v SR WV. unfold f_abs, f_negate. destruct (is_non_negative v); split; auto using ok_ok.
  intros [E|E]; [discriminate|auto].
Qed.
