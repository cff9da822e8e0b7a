(** Proofs of the statements in Props_Rlaws.v. *)

From Coq Require Import ZArith QArith Qabs Bool Lia Lqa.
From Verif Require Import Machine Raw Ops Spec Fraction Fraction_spec Fmath Fmath_spec Rlaws_spec.
From Verif Require Import Machine_proofs Value_proofs Rlaws_proofs Rlaws2_proofs.
Open Scope Z_scope.

Lemma c114_monotone : forall o t v w m a b p q, wf_rep t -> rsigned t = true -> wf_raw t v -> wf_raw t w ->
  compares_well o m v -> compares_well o m w -> value v = Some p -> value w = Some q ->
  f_to_whole (denote o) t v m = Ok a -> f_to_whole (denote o) t w m = Ok b ->
  m <> round_ceil -> (p <= q)%Q -> a <= b.
Proof.
  intros o t v w m a b p q W S V V' C C' P Q A B M L.
  exact (rounded_monotone m a b p q M (whole_rounded o t v m a p W S V C P A) (whole_rounded o t w m b q W S V' C' Q B) L).
Qed.

Lemma c114_ceil_order : forall t v w a b p q, wf_rep t -> rsigned t = true -> wf_raw t v -> wf_raw t w ->
  value v = Some p -> value w = Some q -> f_ceil t v = Ok a -> f_ceil t w = Ok b -> (p <= q)%Q ->
  (b < a <-> tiny_negative p /\ (q == 0)%Q).
Proof.
  intros t v w a b p q W S V V' P Q A B L.
  assert (C : forall x, compares_well Safe round_ceil x) by (intros x H; discriminate).
  exact (rounded_ceil_monotone a b p q (whole_rounded Safe t v round_ceil a p W S V (C v) P A) (whole_rounded Safe t w round_ceil b q W S V' (C w) Q B) L).
Qed.

Lemma c114_whole : forall o t v m k n, wf_rep t -> rsigned t = true -> wf_raw t v -> compares_well o m v ->
  same_value (value v) (Some (inject_Z n)) -> f_to_whole (denote o) t v m = Ok k -> k = n.
Proof.
  intros o t v m k n W S V C E H. destruct (value v) as [q|] eqn:Q; [|contradiction]. cbn in E.
  apply (rounded_whole m). apply rounded_qeq with q; auto. exact (whole_rounded o t v m k q W S V C Q H).
Qed.

Lemma c114_near : forall o t v m k q, wf_rep t -> rsigned t = true -> wf_raw t v -> compares_well o m v ->
  value v = Some q -> f_to_whole (denote o) t v m = Ok k ->
  (m <> round_ceil -> (Qabs (inject_Z k - q) < 1)%Q) /\ (Qabs (inject_Z k - q) < 2)%Q.
Proof. intros o t v m k q W S V C Q H. apply rounded_near. exact (whole_rounded o t v m k q W S V C Q H). Qed.

Lemma c114_opposite : forall o t v w p q, wf_rep t -> rsigned t = true -> wf_raw t v -> wf_raw t w ->
  value v = Some p -> value w = Some q -> (q == - p)%Q ->
  (forall a b, f_trunc t v = Ok a -> f_trunc t w = Ok b -> b = - a) /\
  (forall a b, f_ceil t v = Ok a -> f_floor t w = Ok b -> (b = - a <-> (p == 0)%Q \/ (1 <= Qabs p)%Q)) /\
  (forall a b, compares_well o round_round v -> compares_well o round_round w ->
    f_round (denote o) t v = Ok a -> f_round (denote o) t w = Ok b ->
    (b = - a <-> ~ whole (p + (1 # 2)) /\ ~ (1 # 2 < Qabs p < 1)%Q)).
Proof.
  intros o t v w p q W S V V' P Q E.
  assert (C : forall m x, m <> round_round -> compares_well o m x) by (intros m x N H; contradiction).
  split; [|split].
  - intros a b A B. apply (trunc_opposite a b p); [|apply rounded_qeq with q; auto].
    + exact (whole_rounded o t v round_trunc a p W S V (C round_trunc v ltac:(discriminate)) P A).
    + exact (whole_rounded o t w round_trunc b q W S V' (C round_trunc w ltac:(discriminate)) Q B).
  - intros a b A B. apply (floor_ceil_opposite a b p); [|apply rounded_qeq with q; auto].
    + exact (whole_rounded o t v round_ceil a p W S V (C round_ceil v ltac:(discriminate)) P A).
    + exact (whole_rounded o t w round_floor b q W S V' (C round_floor w ltac:(discriminate)) Q B).
  - intros a b CV CW A B. apply (round_opposite a b p); [|apply rounded_qeq with q; auto].
    + exact (whole_rounded o t v round_round a p W S V CV P A).
    + exact (whole_rounded o t w round_round b q W S V' CW Q B).
Qed.

Lemma c114_shift : forall o t v w m a b p q n, wf_rep t -> rsigned t = true -> wf_raw t v -> wf_raw t w ->
  compares_well o m v -> compares_well o m w -> value v = Some p -> value w = Some q -> (q == p + inject_Z n)%Q ->
  f_to_whole (denote o) t v m = Ok a -> f_to_whole (denote o) t w m = Ok b ->
  (b = a + n <->
   match m with
   | round_trunc => whole p \/ (0 <= p /\ 0 <= q)%Q \/ (p <= 0 /\ q <= 0)%Q
   | round_floor | round_ceil => n = 0 \/ ~ tiny_negative p /\ ~ tiny_negative q
   | round_round => n = 0 \/ ~ below_minus_half p /\ ~ below_minus_half q
   end).
Proof.
  intros o t v w m a b p q n W S V V' C C' P Q E A B.
  pose proof (whole_rounded o t v m a p W S V C P A) as RA. pose proof (whole_rounded o t w m b q W S V' C' Q B) as RB.
  destruct m; [now apply trunc_shift|now apply ceil_shift|now apply floor_shift|now apply round_shift].
Qed.

Lemma c114_again : forall o t v d m r s, wf_rep t -> rsigned t = true -> wf_raw t v ->
  compares_well o m v -> compares_well o m r -> in_rep t d = true -> d <> 0 ->
  f_redenominate (denote o) t v d m = Ok r -> f_redenominate (denote o) t r d m = Ok s -> s = r.
Proof.
  intros o t v d m r s W S V C C' I D H H'.
  exact (redenominate_again o t v d m r s W S V (redenominate_wf _ t v d m r W I H) C C' I D H H').
Qed.

Lemma c114_redenominate_monotone : forall o t v w d m r s p q, wf_rep t -> rsigned t = true -> wf_raw t v -> wf_raw t w ->
  compares_well o m v -> compares_well o m w -> m <> round_ceil -> in_rep t d = true -> 0 < d ->
  value v = Some p -> value w = Some q -> (p <= q)%Q ->
  f_redenominate (denote o) t v d m = Ok r -> f_redenominate (denote o) t w d m = Ok s -> num r <= num s.
Proof. exact redenominate_monotone. Qed.

Lemma c114_through_finer : forall o t v c d m r s u, wf_rep t -> rsigned t = true -> wf_raw t v ->
  m = round_trunc \/ m = round_ceil ->
  0 < c -> d <> 0 -> in_rep t d = true -> in_rep t (c * d) = true ->
  f_redenominate (denote o) t v (c * d) m = Ok r -> f_redenominate (denote o) t r d m = Ok s ->
  f_redenominate (denote o) t v d m = Ok u -> s = u.
Proof.
  intros o t v c d m r s u W S V M C D ID IE H1 H2 H3.
  destruct (twice_setup o t v c d m r s u W S V ltac:(destruct M; subst; discriminate) C D ID IE H1 H2 H3) as (q & j & k & l & _ & J & K & L & E).
  apply E. destruct M; subst m; [exact (trunc_twice c _ j k l C J K L)|exact (ceil_twice c _ j k l C J K L)].
Qed.

Lemma c114_floor_through_finer : forall o t v c d r s u q, wf_rep t -> rsigned t = true -> wf_raw t v ->
  0 < c -> d <> 0 -> in_rep t d = true -> in_rep t (c * d) = true -> value v = Some q ->
  f_redenominate (denote o) t v (c * d) round_floor = Ok r -> f_redenominate (denote o) t r d round_floor = Ok s ->
  f_redenominate (denote o) t v d round_floor = Ok u ->
  (s <> u <-> 1 < c /\ (- inject_Z c < q * inject_Z (Z.abs (c * d)) < 1 - inject_Z c)%Q).
Proof.
  intros o t v c d r s u q W S V C D ID IE Q H1 H2 H3.
  destruct (twice_setup o t v c d round_floor r s u W S V ltac:(discriminate) C D ID IE H1 H2 H3) as (q' & j & k & l & Q' & J & K & L & E).
  rewrite Q in Q'. injection Q' as <-. rewrite <- (floor_twice c _ j k l C J K L). tauto.
Qed.

