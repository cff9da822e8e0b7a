(** Proofs for C114. *)

From Coq Require Import ZArith QArith Qabs Bool Lia Lqa.
From Verif Require Import Machine Raw Ops Spec Fraction Fraction_spec Fmath Fmath_spec Rlaws_spec.
From Verif Require Import Machine_proofs Value_proofs Ops_proofs Fmath_proofs Fmath_claims.
Open Scope Z_scope.

(** What each mode makes of a number. *)
Definition rounded (m : round_mode) (k : Z) (q : Q) : Prop :=
  match m with
  | round_trunc => is_trunc k q
  | round_floor => (~ tiny_negative q -> is_floor k q) /\ (tiny_negative q -> k = 0)
  | round_ceil => (~ tiny_negative q -> is_ceil k q) /\ (tiny_negative q -> k = 1)
  | round_round => (~ below_minus_half q -> is_round k q) /\ (below_minus_half q -> k = 0)
  end.

Lemma whole_rounded : forall o t v m k q, wf_rep t -> rsigned t = true -> wf_raw t v ->
  compares_well o m v -> value v = Some q -> f_to_whole (denote o) t v m = Ok k -> rounded m k q.
Proof.
  intros o t v m k q W S V C E H. destruct m; cbn [f_to_whole rounded] in *.
  - destruct (c27_trunc_toward_zero t v k W V H) as (q' & E' & R). congruence.
  - destruct (c29_ceil_partial t v k W V H) as (q' & E' & R). rewrite E in E'. injection E' as <-. exact R.
  - destruct (c28_floor_partial t v k W V H) as (q' & E' & R). rewrite E in E'. injection E' as <-. exact R.
  - destruct (c30_round_partial o t v k W S V (C eq_refl) H) as (q' & E' & R). rewrite E in E'. injection E' as <-. exact R.
Qed.

Lemma inj1 : forall k, (inject_Z (k + 1) == inject_Z k + 1)%Q.
Proof. intros. now rewrite inject_Z_plus. Qed.
Lemma inj_1 : forall k, (inject_Z (k - 1) == inject_Z k - 1)%Q.
Proof. intros. replace (k - 1) with (k + -1) by lia. now rewrite inject_Z_plus. Qed.
Lemma injlt : forall a b, a < b -> (inject_Z a + 1 <= inject_Z b)%Q.
Proof. intros. rewrite <- inj1, <- Zle_Qle. lia. Qed.
Lemma injle : forall a b, a <= b -> (inject_Z a <= inject_Z b)%Q.
Proof. intros. now rewrite <- Zle_Qle. Qed.
Lemma tiny_dec : forall q, tiny_negative q \/ ~ tiny_negative q.
Proof.
  intros q. unfold tiny_negative. destruct (Qlt_le_dec (inject_Z (-1)) q), (Qlt_le_dec q 0); [left; auto|right|right|right]; intros [? ?]; lra.
Qed.
Lemma half_dec : forall q, below_minus_half q \/ ~ below_minus_half q.
Proof.
  intros q. unfold below_minus_half. destruct (Qlt_le_dec (inject_Z (-1)) q), (Qlt_le_dec q (-1 # 2)); [left; auto|right|right|right]; intros [? ?]; lra.
Qed.
Lemma tiny_not : forall q, ~ tiny_negative q -> (q <= -1)%Q \/ (0 <= q)%Q.
Proof.
  intros q N. destruct (Qlt_le_dec (-1) q); [|now left]. right. destruct (Qlt_le_dec q 0); auto. exfalso. apply N. split; auto.
Qed.
Lemma half_not : forall q, ~ below_minus_half q -> (q <= -1)%Q \/ (-1 # 2 <= q)%Q.
Proof.
  intros q N. destruct (Qlt_le_dec (-1) q); [|now left]. right. destruct (Qlt_le_dec q (-1 # 2)); auto. exfalso. apply N. split; auto.
Qed.
Lemma tiny_iff : forall q, tiny_negative q <-> (-1 < q < 0)%Q.
Proof. intros. unfold tiny_negative. change (inject_Z (-1)) with (-1)%Q. tauto. Qed.
Lemma half_iff : forall q, below_minus_half q <-> (-1 < q < -1 # 2)%Q.
Proof. intros. unfold below_minus_half. change (inject_Z (-1)) with (-1)%Q. tauto. Qed.

(** The same, by cases on intervals. *)
Lemma rounded_cases : forall m k q, rounded m k q -> match m with
  | round_trunc => ((0 <= q)%Q /\ (inject_Z k <= q < inject_Z k + 1)%Q) \/ ((q <= 0)%Q /\ (inject_Z k - 1 < q <= inject_Z k)%Q)
  | round_floor => ((-1 < q < 0)%Q /\ (inject_Z k == 0)%Q) \/ (((q <= -1)%Q \/ (0 <= q)%Q) /\ (inject_Z k <= q < inject_Z k + 1)%Q)
  | round_ceil => ((-1 < q < 0)%Q /\ (inject_Z k == 1)%Q) \/ (((q <= -1)%Q \/ (0 <= q)%Q) /\ (inject_Z k - 1 < q <= inject_Z k)%Q)
  | round_round => ((-1 < q < -1 # 2)%Q /\ (inject_Z k == 0)%Q) \/ (((q <= -1)%Q \/ (-1 # 2 <= q)%Q) /\ (inject_Z k - (1 # 2) <= q < inject_Z k + (1 # 2))%Q)
  end.
Proof.
  intros m k q R. destruct m; cbn [rounded] in R.
  - destruct R as [A B]. destruct (Qlt_le_dec q 0) as [H|H]; [right|left]; (split; [lra|]).
    + specialize (B ltac:(lra)). rewrite inj_1 in B. exact B.
    + specialize (A H). rewrite inj1 in A. exact A.
  - destruct R as [A B]. destruct (tiny_dec q) as [T|T]; [left|right].
    + split; [now apply tiny_iff|]. now rewrite (B T).
    + split; [now apply tiny_not|]. specialize (A T). unfold is_ceil in A. rewrite inj_1 in A. exact A.
  - destruct R as [A B]. destruct (tiny_dec q) as [T|T]; [left|right].
    + split; [now apply tiny_iff|]. now rewrite (B T).
    + split; [now apply tiny_not|]. specialize (A T). unfold is_floor in A. rewrite inj1 in A. exact A.
  - destruct R as [A B]. destruct (half_dec q) as [T|T]; [left|right].
    + split; [now apply half_iff|]. now rewrite (B T).
    + split; [now apply half_not|]. exact (A T).
Qed.

(** Integers in sight. *)
Lemma zcmp : forall a b, (a < b /\ (inject_Z a + 1 <= inject_Z b)%Q) \/ a = b \/ (b < a /\ (inject_Z b + 1 <= inject_Z a)%Q).
Proof.
  intros a b. destruct (Z.lt_total a b) as [H|[H|H]]; [left|right; left|right; right]; auto; split; auto; now apply injlt.
Qed.
Lemma inj0 : (inject_Z 0 == 0)%Q. Proof. reflexivity. Qed.
Lemma injone : (inject_Z 1 == 1)%Q. Proof. reflexivity. Qed.
Lemma injm1 : (inject_Z (-1) == -1)%Q. Proof. reflexivity. Qed.

Ltac qs := repeat match goal with H : _ \/ _ |- _ => destruct H | H : _ /\ _ |- _ => destruct H end.
(** Decide between two integers by what is known of them as rationals. *)
Ltac zc a b := let A := fresh in pose proof inj0; pose proof injone; pose proof injm1;
  destruct (zcmp a b) as [A|[A|A]]; [destruct A|rewrite ?A in *|destruct A]; try lia; exfalso; lra.

Lemma rounded_monotone : forall m a b p q, m <> round_ceil ->
  rounded m a p -> rounded m b q -> (p <= q)%Q -> a <= b.
Proof.
  intros m a b p q M A B L. apply rounded_cases in A. apply rounded_cases in B.
  pose proof inj0; pose proof injone; pose proof injm1.
  pose proof (zcmp a 0); pose proof (zcmp b 0); pose proof (zcmp a (-1)).
  destruct (zcmp a b) as [C|[C|C]]; try lia. destruct C as [_ C]. exfalso.
  destruct m; [|congruence| |]; qs; subst; try lra.
Qed.

Lemma rounded_ceil_monotone : forall a b p q,
  rounded round_ceil a p -> rounded round_ceil b q -> (p <= q)%Q ->
  (b < a <-> tiny_negative p /\ (q == 0)%Q).
Proof.
  intros a b p q A B L. apply rounded_cases in A. apply rounded_cases in B. rewrite tiny_iff.
  pose proof inj0; pose proof injone; pose proof injm1.
  split.
  - intros C. pose proof (injlt b a C). pose proof (zcmp b 0). pose proof (zcmp a 1). qs; subst; try lra; try (split; lra).
  - intros [T Z]. pose proof (zcmp b a). pose proof (zcmp b 0). qs; subst; try lra; auto.
Qed.

Lemma rounded_whole : forall m k n, rounded m k (inject_Z n) -> k = n.
Proof.
  intros m k n R. apply rounded_cases in R. pose proof inj0; pose proof injone; pose proof injm1.
  pose proof (zcmp n 0); pose proof (zcmp n (-1)).
  destruct (zcmp k n) as [C|[C|C]]; auto; destruct C as [_ C]; exfalso; destruct m; qs; subst; try lra; try lia.
Qed.

Lemma rounded_qeq : forall m k p q, (p == q)%Q -> rounded m k p -> rounded m k q.
Proof.
  intros m k p q E R. destruct m; cbn [rounded] in *; unfold is_trunc, is_floor, is_ceil, is_round, tiny_negative, below_minus_half in *;
    rewrite <- !E; exact R.
Qed.

Lemma rounded_near : forall m k q, rounded m k q ->
  (m <> round_ceil -> (Qabs (inject_Z k - q) < 1)%Q) /\ (Qabs (inject_Z k - q) < 2)%Q.
Proof.
  intros m k q R. apply rounded_cases in R.
  split; [intros M|]; (apply Qabs_Qlt_condition); destruct m; try congruence; qs; split; lra.
Qed.

Lemma rounded_unique : forall m j k q, rounded m j q -> rounded m k q -> j = k.
Proof.
  intros m j k q A B. apply rounded_cases in A. apply rounded_cases in B. pose proof inj0; pose proof injone; pose proof injm1.
  destruct (zcmp j k) as [C|[C|C]]; auto; destruct C as [_ C]; exfalso; destruct m; qs; subst; try lra;
  pose proof (zcmp j 0); pose proof (zcmp k 0); qs; subst; try lra; lia.
Qed.

Lemma injopp : forall k, (inject_Z (- k) == - inject_Z k)%Q.
Proof. intros. now rewrite inject_Z_opp. Qed.

Lemma trunc_opposite : forall a b p, rounded round_trunc a p -> rounded round_trunc b (- p) -> b = - a.
Proof.
  intros a b p A B. apply rounded_cases in A. apply rounded_cases in B. pose proof inj0; pose proof injone; pose proof injm1.
  pose proof (injopp a). pose proof (zcmp a 0). pose proof (zcmp b 0).
  destruct (zcmp b (- a)) as [C|[C|C]]; auto; destruct C as [_ C]; exfalso; qs; subst; try lra; lia.
Qed.

Lemma floor_ceil_opposite : forall a b p, rounded round_ceil a p -> rounded round_floor b (- p) ->
  (b = - a <-> (p == 0)%Q \/ (1 <= Qabs p)%Q).
Proof.
  intros a b p A B. apply rounded_cases in A. apply rounded_cases in B. pose proof inj0; pose proof injone; pose proof injm1.
  pose proof (injopp a) as IO. split.
  - intros E. rewrite E in B. rewrite IO in B. pose proof (zcmp a 0) as ZA. clear E.
    destruct (Qlt_le_dec (Qabs p) 1) as [L|L]; [left|now right].
    apply Qabs_Qlt_condition in L. qs; subst; lra.
  - intros C. assert (D : (p == 0)%Q \/ (1 <= p)%Q \/ (p <= -1)%Q).
    { destruct C as [C|C]; [now left|right]. destruct (Qlt_le_dec p 1); [|now left]. right.
      destruct (Qlt_le_dec (-1) p); auto. exfalso. assert (Qabs p < 1)%Q by (apply Qabs_Qlt_condition; lra). lra. }
    clear C. destruct (zcmp b (- a)) as [C|[C|C]]; auto; destruct C as [_ C]; exfalso; qs; subst; lra.
Qed.

Lemma round_opposite : forall a b p, rounded round_round a p -> rounded round_round b (- p) ->
  (b = - a <-> ~ whole (p + (1 # 2)) /\ ~ (1 # 2 < Qabs p < 1)%Q).
Proof.
  intros a b p A B. apply rounded_cases in A. apply rounded_cases in B. pose proof inj0 as I0; pose proof injone as I1; pose proof injm1 as IM.
  pose proof (injopp a) as IO. split.
  - intros E. split.
    + intros [n N]. assert (BN : (inject_Z b == - inject_Z a)%Q) by (rewrite E; exact IO).
      pose proof (zcmp a n). pose proof (zcmp a 0). qs; subst; try lra; try lia.
    + intros [L1 L2]. apply Qabs_Qlt_condition in L2. assert (BN : (inject_Z b == - inject_Z a)%Q) by (rewrite E; exact IO).
      assert (D : (p < - (1 # 2))%Q \/ ((1 # 2) < p)%Q).
      { destruct (Qlt_le_dec p 0); [left; rewrite Qabs_neg in L1 by lra|right; rewrite Qabs_pos in L1 by lra]; lra. }
      pose proof (zcmp a 0). pose proof (zcmp b 0). clear L1 E. qs; subst; try lra; try lia.
  - intros [NW NT]. assert (D : (p <= -1)%Q \/ (- (1 # 2) <= p <= (1 # 2))%Q \/ (1 <= p)%Q).
    { destruct (Qlt_le_dec (-1) p) as [L|L]; [right|now left]. destruct (Qlt_le_dec p 1) as [U|U]; [left|now right].
      destruct (Qlt_le_dec (1 # 2) (Qabs p)) as [X|X]. { exfalso. apply NT. split; auto. apply Qabs_Qlt_condition. lra. }
      apply Qabs_Qle_condition in X. exact X. }
    assert (TA : ~ (inject_Z a - (1 # 2) == p)%Q).
    { intros T. apply NW. exists a. lra. }
    assert (TB : ~ (inject_Z b - (1 # 2) == - p)%Q).
    { intros T. apply NW. exists (1 - b). unfold Z.sub. rewrite inject_Z_plus, injopp. lra. }
    assert (TA' : (p < inject_Z a - (1 # 2))%Q \/ (inject_Z a - (1 # 2) < p)%Q) by (destruct (Q_dec p (inject_Z a - (1 # 2))) as [[?|?]|?]; [now left|now right|exfalso; apply TA; lra]).
    assert (TB' : (- p < inject_Z b - (1 # 2))%Q \/ (inject_Z b - (1 # 2) < - p)%Q) by (destruct (Q_dec (- p) (inject_Z b - (1 # 2))) as [[?|?]|?]; [now left|now right|exfalso; apply TB; lra]).
    clear NW NT TA TB.
    destruct (zcmp b (- a)) as [C|[C|C]]; auto; destruct C as [_ C]; exfalso; qs; subst; lra.
Qed.

Lemma injplus : forall a b, (inject_Z (a + b) == inject_Z a + inject_Z b)%Q.
Proof. intros. now rewrite inject_Z_plus. Qed.

Lemma floor_shift : forall a b p q n, rounded round_floor a p -> rounded round_floor b q -> (q == p + inject_Z n)%Q ->
  (b = a + n <-> n = 0 \/ ~ tiny_negative p /\ ~ tiny_negative q).
Proof.
  intros a b p q n A B E. apply rounded_cases in A. apply rounded_cases in B. pose proof inj0 as I0; pose proof injone as I1; pose proof injm1 as IM.
  rewrite !tiny_iff. pose proof (injplus a n) as IP. split.
  - intros F. assert (BN : (inject_Z b == inject_Z a + inject_Z n)%Q) by (rewrite F; exact IP).
    destruct (Z.eq_dec n 0) as [Z|Z]; [now left|right].
    assert (D : (inject_Z n <= -1)%Q \/ (1 <= inject_Z n)%Q).
    { destruct (zcmp n 0) as [[_ D]|[D|[_ D]]]; [left; lra|lia|right; lra]. }
    clear F Z. pose proof (zcmp a (-1)). pose proof (zcmp b (-1)). split; intros [X Y]; qs; subst; try lra; lia.
  - intros [->|[X Y]].
    + assert (EQ : (q == p)%Q) by (rewrite E; lra).
      pose proof (zcmp a 0). pose proof (zcmp b 0).
      destruct (zcmp b (a + 0)) as [C|[C|C]]; auto; destruct C as [_ C]; exfalso; qs; subst; try lra; lia.
    + destruct (zcmp b (a + n)) as [C|[C|C]]; auto; destruct C as [_ C]; exfalso; qs; subst; try lra; try (apply X; split; lra); try (apply Y; split; lra).
Qed.

Lemma ceil_shift : forall a b p q n, rounded round_ceil a p -> rounded round_ceil b q -> (q == p + inject_Z n)%Q ->
  (b = a + n <-> n = 0 \/ ~ tiny_negative p /\ ~ tiny_negative q).
Proof.
  intros a b p q n A B E. apply rounded_cases in A. apply rounded_cases in B. pose proof inj0 as I0; pose proof injone as I1; pose proof injm1 as IM.
  rewrite !tiny_iff. pose proof (injplus a n) as IP. split.
  - intros F. assert (BN : (inject_Z b == inject_Z a + inject_Z n)%Q) by (rewrite F; exact IP).
    destruct (Z.eq_dec n 0) as [Z|Z]; [now left|right].
    assert (D : (inject_Z n <= -1)%Q \/ (1 <= inject_Z n)%Q).
    { destruct (zcmp n 0) as [[_ D]|[D|[_ D]]]; [left; lra|lia|right; lra]. }
    clear F Z. pose proof (zcmp a 0). pose proof (zcmp b 0). split; intros [X Y]; qs; subst; try lra; lia.
  - intros [->|[X Y]].
    + assert (EQ : (q == p)%Q) by (rewrite E; lra).
      pose proof (zcmp a 0). pose proof (zcmp b 0).
      destruct (zcmp b (a + 0)) as [C|[C|C]]; auto; destruct C as [_ C]; exfalso; qs; subst; try lra; lia.
    + destruct (zcmp b (a + n)) as [C|[C|C]]; auto; destruct C as [_ C]; exfalso; qs; subst; try lra; try (apply X; split; lra); try (apply Y; split; lra).
Qed.

Lemma round_shift : forall a b p q n, rounded round_round a p -> rounded round_round b q -> (q == p + inject_Z n)%Q ->
  (b = a + n <-> n = 0 \/ ~ below_minus_half p /\ ~ below_minus_half q).
Proof.
  intros a b p q n A B E. apply rounded_cases in A. apply rounded_cases in B. pose proof inj0 as I0; pose proof injone as I1; pose proof injm1 as IM.
  rewrite !half_iff. pose proof (injplus a n) as IP. split.
  - intros F. assert (BN : (inject_Z b == inject_Z a + inject_Z n)%Q) by (rewrite F; exact IP).
    destruct (Z.eq_dec n 0) as [Z|Z]; [now left|right].
    assert (D : (inject_Z n <= -1)%Q \/ (1 <= inject_Z n)%Q).
    { destruct (zcmp n 0) as [[_ D]|[D|[_ D]]]; [left; lra|lia|right; lra]. }
    clear F Z. pose proof (zcmp a (-1)). pose proof (zcmp b (-1)). split; intros [X Y]; qs; subst; try lra; lia.
  - intros [->|[X Y]].
    + assert (EQ : (q == p)%Q) by (rewrite E; lra).
      pose proof (zcmp a 0). pose proof (zcmp b 0).
      destruct (zcmp b (a + 0)) as [C|[C|C]]; auto; destruct C as [_ C]; exfalso; qs; subst; try lra; lia.
    + destruct (zcmp b (a + n)) as [C|[C|C]]; auto; destruct C as [_ C]; exfalso; qs; subst; try lra; try (apply X; split; lra); try (apply Y; split; lra).
Qed.

Lemma trunc_shift : forall a b p q n, rounded round_trunc a p -> rounded round_trunc b q -> (q == p + inject_Z n)%Q ->
  (b = a + n <-> whole p \/ (0 <= p /\ 0 <= q)%Q \/ (p <= 0 /\ q <= 0)%Q).
Proof.
  intros a b p q n A B E. apply rounded_cases in A. apply rounded_cases in B. pose proof inj0 as I0; pose proof injone as I1; pose proof injm1 as IM.
  pose proof (injplus a n) as IP. split.
  - intros F. assert (BN : (inject_Z b == inject_Z a + inject_Z n)%Q) by (rewrite F; exact IP).
    destruct (Q_dec p (inject_Z a)) as [[L|L]|L]; [right|right|left; now exists a].
    + right. qs; lra.
    + left. qs; lra.
  - intros [[k K]|C].
    + pose proof (zcmp a k). pose proof (zcmp b (k + n)). pose proof (injplus k n). 
      assert (a = k /\ b = k + n); [|lia]. split; qs; subst; try lra; auto.
    + pose proof (zcmp a 0). pose proof (zcmp b 0).
      destruct (zcmp b (a + n)) as [D|[D|D]]; auto; destruct D as [_ D]; exfalso; qs; subst; try lra; lia.
Qed.

(** Redenominating *)
Definition scale (m : round_mode) (d : Z) : Z := match m with round_round => d | _ => Z.abs d end.

Lemma inj_nz : forall d, d <> 0 -> ~ (inject_Z d == 0)%Q.
Proof. intros d N E. apply N. apply inject_Z_injective. exact E. Qed.

Lemma redenominated : forall o t v d m r, wf_rep t -> rsigned t = true -> wf_raw t v -> compares_well o m v ->
  in_rep t d = true -> d <> 0 -> f_redenominate (denote o) t v d m = Ok r ->
  exists q k, value v = Some q /\ den r = d /\ (exists v', value r = Some v' /\ is_over v' k (scale m d)) /\
    rounded m k (q * inject_Z (scale m d)).
Proof.
  intros o t v d m r W S V C I D H. destruct m; cbn [scale rounded].
  - destruct (c31_trunc_redenominate o t v d r W S V I D H) as (q & v' & k & A & B & E & F & G). exists q, k. eauto 8.
  - destruct (c31_ceil_redenominate_partial o t v d r W S V I D H) as (q & v' & k & A & B & E & F & G & J). exists q, k. eauto 10.
  - destruct (c31_floor_redenominate_partial o t v d r W S V I D H) as (q & v' & k & A & B & E & F & G & J). exists q, k. eauto 10.
  - destruct (c31_round_redenominate_partial o t v d r W S V (C eq_refl) I D H) as (q & v' & k & A & B & E & F & G & J). exists q, k. eauto 10.
Qed.

Lemma scale_nz : forall m d, d <> 0 -> scale m d <> 0.
Proof. intros m d D. unfold scale. destruct m; lia. Qed.

Lemma value_num : forall r v', value r = Some v' -> den r <> 0 /\ (v' * inject_Z (den r) == inject_Z (num r))%Q.
Proof.
  intros r v' H. unfold value in H. destruct (den r =? 0) eqn:E; [discriminate|]. apply Z.eqb_neq in E. rename E into D.
  injection H as <-. split; auto.
  pose proof (inj_nz _ D). field. auto.
Qed.

(** The rounded multiple determines the result. *)
Lemma over_unique : forall r s v w k D, value r = Some v -> value s = Some w -> den r = den s ->
  is_over v k D -> is_over w k D -> r = s.
Proof.
  intros r s v w k D V W E A B. unfold is_over in *. destruct (value_num r v V) as [_ X]. destruct (value_num s w W) as [_ Y].
  assert (N : num r = num s). { apply inject_Z_injective. rewrite <- X, <- Y, A, B, E. reflexivity. }
  destruct r as [a b], s as [c e]. cbn in N, E. congruence.
Qed.

Lemma over_same : forall r s v w k j D, value r = Some v -> value s = Some w -> D <> 0 ->
  is_over v k D -> is_over w j D -> r = s -> k = j.
Proof.
  intros r s v w k j D V W N A B E. subst s. rewrite V in W. injection W as <-. unfold is_over in *.
  apply inject_Z_injective. pose proof (inj_nz D N) as ND.
  assert (X : (inject_Z k / inject_Z D * inject_Z D == inject_Z j / inject_Z D * inject_Z D)%Q) by (now rewrite <- A, <- B).
  field_simplify in X; auto.
Qed.

Lemma redenominate_again : forall o t v d m r r', wf_rep t -> rsigned t = true -> wf_raw t v -> wf_raw t r ->
  compares_well o m v -> compares_well o m r -> in_rep t d = true -> d <> 0 ->
  f_redenominate (denote o) t v d m = Ok r -> f_redenominate (denote o) t r d m = Ok r' -> r' = r.
Proof.
  intros o t v d m r r' W S V R C C' I D H H'.
  destruct (redenominated o t v d m r W S V C I D H) as (q & k & A & B & (v' & E & F) & G).
  destruct (redenominated o t r d m r' W S R C' I D H') as (q' & k' & A' & B' & (v'' & E' & F') & G').
  rewrite E in A'. injection A' as <-.
  assert (K : k' = k). { apply (rounded_whole m). apply rounded_qeq with (v' * inject_Z (scale m d))%Q; auto.
    unfold is_over in F. rewrite F. field. apply inj_nz. now apply scale_nz. }
  subst k'. apply (over_unique r' r v'' v' k (scale m d)); congruence || auto.
Qed.

Lemma trunc_in : forall t v k, wf_rep t -> f_trunc t v = Ok k -> in_rep t k = true.
Proof. intros t v k W H. unfold f_trunc in H. now apply m_div_result_in in H. Qed.
Lemma ceil_in : forall t v k, wf_rep t -> f_ceil t v = Ok k -> in_rep t k = true.
Proof.
  intros t v k W H. unfold f_ceil in H. inv_bind H. inv_bind H. destruct (_ || _); [injection H as <-; eapply trunc_in; eauto|].
  unfold m_add in H. now apply arith_result_in in H.
Qed.
Lemma floor_in : forall t v k, wf_rep t -> f_floor t v = Ok k -> in_rep t k = true.
Proof.
  intros t v k W H. unfold f_floor in H. inv_bind H. inv_bind H. destruct (_ || _); [injection H as <-; eapply trunc_in; eauto|].
  unfold m_sub in H. now apply arith_result_in in H.
Qed.
Lemma round_in : forall p t v k, wf_rep t -> f_round p t v = Ok k -> in_rep t k = true.
Proof.
  intros p t v k W H. unfold f_round in H. inv_bind H. inv_bind H. inv_bind H. match type of H with (if ?b then _ else _) = _ => destruct b end; [injection H as <-; eapply floor_in; eauto|].
  unfold m_add in H. now apply arith_result_in in H.
Qed.

Lemma redenominate_wf : forall p t v d m r, wf_rep t -> in_rep t d = true -> f_redenominate p t v d m = Ok r -> wf_raw t r.
Proof.
  intros p t v d m r W I H. destruct m; cbn [f_redenominate] in H.
  - unfold f_trunc_redenominate in H. inv_bind H. inv_bind H. injection H as <-. split; cbn; auto. eapply trunc_in; eauto.
  - unfold f_ceil_redenominate in H. destruct (d >=? 0).
    + inv_bind H. inv_bind H. injection H as <-. split; cbn; auto. eapply ceil_in; eauto.
    + inv_bind H. inv_bind H. inv_bind H. inv_bind H. injection H as <-. split; cbn; auto.
      match goal with N : m_neg t _ = Ok ?x |- in_rep t ?x = true => unfold m_neg in N; now apply arith_result_in in N end.
  - unfold f_floor_redenominate in H. destruct (d >=? 0).
    + inv_bind H. inv_bind H. injection H as <-. split; cbn; auto. eapply floor_in; eauto.
    + inv_bind H. inv_bind H. inv_bind H. inv_bind H. injection H as <-. split; cbn; auto.
      match goal with N : m_neg t _ = Ok ?x |- in_rep t ?x = true => unfold m_neg in N; now apply arith_result_in in N end.
  - unfold f_round_redenominate in H. inv_bind H. inv_bind H. injection H as <-. split; cbn; auto. eapply round_in; eauto.
Qed.

(** Rounding twice *)
Lemma scaled_cases : forall m k c y x, 0 < c -> (y * inject_Z c == x)%Q -> rounded m k y -> match m with
  | round_trunc => ((0 <= x)%Q /\ (inject_Z (k * c) <= x < inject_Z (k * c) + inject_Z c)%Q) \/
                   ((x <= 0)%Q /\ (inject_Z (k * c) - inject_Z c < x <= inject_Z (k * c))%Q)
  | round_floor => ((- inject_Z c < x < 0)%Q /\ k = 0) \/
                   (((x <= - inject_Z c)%Q \/ (0 <= x)%Q) /\ (inject_Z (k * c) <= x < inject_Z (k * c) + inject_Z c)%Q)
  | round_ceil => ((- inject_Z c < x < 0)%Q /\ k = 1) \/
                   (((x <= - inject_Z c)%Q \/ (0 <= x)%Q) /\ (inject_Z (k * c) - inject_Z c < x <= inject_Z (k * c))%Q)
  | round_round => True
  end.
Proof.
  intros m k c y x C X R. assert (P : (0 < inject_Z c)%Q) by (change 0%Q with (inject_Z 0); rewrite <- Zlt_Qlt; lia).
  assert (LE : forall a b, (a <= b)%Q -> (a * inject_Z c <= b * inject_Z c)%Q) by (intros; now apply Qmult_le_r).
  assert (LT : forall a b, (a < b)%Q -> (a * inject_Z c < b * inject_Z c)%Q) by (intros; now apply Qmult_lt_r).
  assert (KC : (inject_Z (k * c) == inject_Z k * inject_Z c)%Q) by now rewrite inject_Z_mult.
  assert (Z1 : k = 0 \/ ~ (inject_Z k == 0)%Q) by (destruct (Z.eq_dec k 0); [now left|right; now apply inj_nz]).
  assert (Z2 : k = 1 \/ ~ (inject_Z k == 1)%Q).
  { destruct (Z.eq_dec k 1); [now left|right]. intros E. apply n. apply inject_Z_injective. exact E. }
  apply rounded_cases in R. destruct m; auto.
  - destruct R as [[A [B D]]|[A [B D]]]; apply LE in A; [left|right].
    + apply LE in B. apply LT in D. rewrite X in *. lra.
    + apply LT in B. apply LE in D. rewrite X in *. lra.
  - destruct R as [[[A A'] B]|[[A|A] [B D]]].
    + left. apply LT in A, A'. rewrite X in *. split; [lra|tauto].
    + right. apply LE in A. apply LT in B. apply LE in D. rewrite X in *. split; [left|]; lra.
    + right. apply LE in A. apply LT in B. apply LE in D. rewrite X in *. split; [right|]; lra.
  - destruct R as [[[A A'] B]|[[A|A] [B D]]].
    + left. apply LT in A, A'. rewrite X in *. split; [lra|tauto].
    + right. apply LE in A. apply LE in B. apply LT in D. rewrite X in *. split; [left|]; lra.
    + right. apply LE in A. apply LE in B. apply LT in D. rewrite X in *. split; [right|]; lra.
Qed.

Lemma div_mul : forall x c, 0 < c -> (x / inject_Z c * inject_Z c == x)%Q.
Proof. intros x c C. field. apply inj_nz. lia. Qed.

(** Two different multiples of [c]. *)
Lemma multiples : forall c k l, 0 < c -> k = l \/ (inject_Z (k * c) + inject_Z c <= inject_Z (l * c))%Q \/ (inject_Z (l * c) + inject_Z c <= inject_Z (k * c))%Q.
Proof.
  intros c k l C. destruct (Z.lt_total k l) as [H|[H|H]]; auto; right; [left|right]; rewrite <- inject_Z_plus, <- Zle_Qle; nia.
Qed.

