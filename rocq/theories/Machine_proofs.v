(** Facts about machine integers. *)

From Coq Require Import ZArith Bool Lia Znumtheory Zquot.
From Verif Require Import Machine.
Open Scope Z_scope.

(** Split a hypothesis [bind x f = Ok r] into its steps. *)
Ltac inv_bind H :=
  repeat
    match type of H with
    | bind ?x _ = Ok _ =>
        let E := fresh "E" in
        destruct x eqn:E; [cbn [bind] in H | discriminate H]
    end.

(** The same for every hypothesis, also under [if ... then Ok b else]. *)
Ltac inv_all :=
  repeat
    match goal with
    | H : bind ?x _ = Ok _ |- _ =>
        let E := fresh "E" in
        destruct x eqn:E; [cbn [bind] in H | discriminate H]
    | H : Ok _ = Ok _ |- _ => inversion H; subst; clear H
    end.

Lemma bind_ok : forall A B (x : res A) (f : A -> res B) r,
  bind x f = Ok r -> exists a, x = Ok a /\ f a = Ok r.
Proof. intros A B [a|u] f r H; cbn in H; [eauto|discriminate]. Qed.

Lemma pow2_pos : forall n, 0 <= n -> 0 < 2 ^ n.
Proof. intros. apply Z.pow_pos_nonneg; lia. Qed.

Lemma pow2_split : forall b, 1 <= b -> 2 ^ b = 2 * 2 ^ (b - 1).
Proof.
  intros b Hb. replace b with (Z.succ (b - 1)) at 1 by lia.
  apply Z.pow_succ_r; lia.
Qed.

Lemma in_rep_iff : forall t v, in_rep t v = true <-> rmin t <= v <= rmax t.
Proof.
  intros. unfold in_rep. rewrite andb_true_iff, !Z.leb_le. tauto.
Qed.

Lemma rmax_big : forall t, wf_rep t -> 2147483647 <= rmax t.
Proof.
  intros [s b] H. unfold wf_rep, rmax in *. cbn in *.
  destruct s.
  - assert (2 ^ 31 <= 2 ^ (b - 1)) by (apply Z.pow_le_mono_r; lia). lia.
  - assert (2 ^ 32 <= 2 ^ b) by (apply Z.pow_le_mono_r; lia). lia.
Qed.

Lemma rmin_rmax_signed : forall t, rsigned t = true -> rmin t = - rmax t - 1.
Proof. intros [s b] H; cbn in *; subst. unfold rmin, rmax; cbn. lia. Qed.

Lemma rmin_unsigned : forall t, rsigned t = false -> rmin t = 0.
Proof. intros [s b] H; cbn in *; subst. reflexivity. Qed.

Lemma rmin_nonpos : forall t, wf_rep t -> rmin t <= 0.
Proof.
  intros t H. destruct (rsigned t) eqn:S.
  - rewrite rmin_rmax_signed by auto. pose proof (rmax_big t H). lia.
  - rewrite rmin_unsigned by auto. lia.
Qed.

Lemma wrap_id : forall t v, wf_rep t -> in_rep t v = true -> wrap t v = v.
Proof.
  intros [s b] v Hw H. apply in_rep_iff in H.
  unfold wf_rep, rmin, rmax, wrap in *; cbn in *.
  assert (P : 2 ^ b = 2 * 2 ^ (b - 1)) by (apply pow2_split; lia).
  destruct s.
  - rewrite Z.mod_small; lia.
  - rewrite Z.mod_small; lia.
Qed.

Lemma wrap_in : forall t v, wf_rep t -> in_rep t (wrap t v) = true.
Proof.
  intros [s b] v Hw. apply in_rep_iff.
  unfold wf_rep, rmin, rmax, wrap in *; cbn in *.
  assert (P : 2 ^ b = 2 * 2 ^ (b - 1)) by (apply pow2_split; lia).
  assert (0 < 2 ^ (b - 1)) by (apply pow2_pos; lia).
  destruct s.
  - pose proof (Z.mod_pos_bound (v + 2 ^ (b - 1)) (2 ^ b)). lia.
  - pose proof (Z.mod_pos_bound v (2 ^ b)). lia.
Qed.

Lemma arith_in : forall t v, wf_rep t -> in_rep t v = true -> arith t v = Ok v.
Proof.
  intros t v Hw H. unfold arith. rewrite H.
  destruct (rsigned t); [reflexivity|]. now rewrite wrap_id.
Qed.

Lemma arith_result_in : forall t v r, wf_rep t -> arith t v = Ok r -> in_rep t r = true.
Proof.
  intros t v r Hw H. unfold arith in H.
  destruct (rsigned t).
  - destruct (in_rep t v) eqn:E; [|discriminate]. now inversion H; subst.
  - inversion H. now apply wrap_in.
Qed.

Lemma arith_signed : forall t v r, rsigned t = true ->
  arith t v = Ok r -> r = v /\ in_rep t v = true.
Proof.
  intros t v r S H. unfold arith in H. rewrite S in H.
  destruct (in_rep t v); [|discriminate]. inversion H. auto.
Qed.

Lemma m_div_signed : forall t a b r, rsigned t = true ->
  m_div t a b = Ok r -> b <> 0 /\ r = Z.quot a b /\ in_rep t r = true.
Proof.
  intros t a b r S H. unfold m_div in H.
  destruct (Z.eqb_spec b 0); [discriminate|].
  apply arith_signed in H; auto. destruct H; subst; auto.
Qed.

Lemma m_rem_signed : forall t a b r, rsigned t = true ->
  m_rem t a b = Ok r -> b <> 0 /\ r = Z.rem a b /\ in_rep t (Z.quot a b) = true.
Proof.
  intros t a b r S H. unfold m_rem in H.
  destruct (Z.eqb_spec b 0); [discriminate|].
  inv_bind H. apply arith_signed in E; auto. destruct E as [-> E].
  inversion H; auto.
Qed.

(** Turn all successful signed operations in the context into equations. *)
Ltac signed_facts S :=
  repeat
    match goal with
    | H : m_add ?t ?a ?b = Ok ?r |- _ =>
        unfold m_add in H; apply (arith_signed _ _ _ S) in H;
        let H1 := fresh "V" in destruct H as [H1 H]
    | H : m_sub ?t ?a ?b = Ok ?r |- _ =>
        unfold m_sub in H; apply (arith_signed _ _ _ S) in H;
        let H1 := fresh "V" in destruct H as [H1 H]
    | H : m_mul ?t ?a ?b = Ok ?r |- _ =>
        unfold m_mul in H; apply (arith_signed _ _ _ S) in H;
        let H1 := fresh "V" in destruct H as [H1 H]
    | H : m_neg ?t ?a = Ok ?r |- _ =>
        unfold m_neg in H; apply (arith_signed _ _ _ S) in H;
        let H1 := fresh "V" in destruct H as [H1 H]
    | H : m_div ?t ?a ?b = Ok ?r |- _ =>
        apply (m_div_signed _ _ _ _ S) in H;
        let H1 := fresh "NZ" in let H2 := fresh "V" in destruct H as [H1 [H2 H]]
    | H : m_rem ?t ?a ?b = Ok ?r |- _ =>
        apply (m_rem_signed _ _ _ _ S) in H;
        let H1 := fresh "NZ" in let H2 := fresh "V" in destruct H as [H1 [H2 H]]
    end.

Lemma m_div_in : forall t a b, wf_rep t -> b <> 0 -> in_rep t (Z.quot a b) = true ->
  m_div t a b = Ok (Z.quot a b).
Proof.
  intros t a b Hw Hb H. unfold m_div.
  destruct (Z.eqb_spec b 0); [contradiction|]. now apply arith_in.
Qed.

Lemma m_rem_in : forall t a b, wf_rep t -> b <> 0 -> in_rep t (Z.quot a b) = true ->
  m_rem t a b = Ok (Z.rem a b).
Proof.
  intros t a b Hw Hb H. unfold m_rem.
  destruct (Z.eqb_spec b 0); [contradiction|]. now rewrite arith_in.
Qed.

Lemma m_div_result_in : forall t a b r, wf_rep t -> m_div t a b = Ok r -> in_rep t r = true.
Proof.
  intros t a b r Hw H. unfold m_div in H.
  destruct (b =? 0); [discriminate|]. eapply arith_result_in; eauto.
Qed.

Lemma abs_rem_le : forall a b, Z.abs (Z.rem a b) <= Z.abs a.
Proof.
  intros a b. destruct (Z.eq_dec b 0) as [->|Hb].
  - rewrite Zrem_0_r. lia.
  - pose proof (Z.rem_abs a b Hb) as H.
    rewrite <- H. apply Z.rem_le; lia.
Qed.

Lemma rem_between : forall a b, (0 <= a -> 0 <= Z.rem a b <= a) /\ (a <= 0 -> a <= Z.rem a b <= 0).
Proof.
  intros a b. pose proof (abs_rem_le a b).
  destruct (Z.eq_dec b 0) as [->|Hb].
  - rewrite Zrem_0_r. lia.
  - split; intros.
    + pose proof (Z.rem_nonneg a b Hb H0). lia.
    + pose proof (Z.rem_nonpos a b Hb H0). lia.
Qed.

Lemma m_rem_result_in : forall t a b r, wf_rep t -> in_rep t a = true ->
  m_rem t a b = Ok r -> in_rep t r = true.
Proof.
  intros t a b r Hw Ha H. unfold m_rem in H.
  destruct (b =? 0); [discriminate|]. inv_bind H. inversion H; subst.
  apply in_rep_iff in Ha. apply in_rep_iff.
  pose proof (rem_between a b) as [H1 H2]. pose proof (rmin_nonpos t Hw).
  pose proof (rmax_big t Hw). lia.
Qed.

Lemma in_rep_abs : forall t v, wf_rep t -> Z.abs v <= rmax t ->
  (rsigned t = false -> 0 <= v) -> in_rep t v = true.
Proof.
  intros t v Hw H U. apply in_rep_iff. destruct (rsigned t) eqn:S.
  - rewrite (rmin_rmax_signed t S). lia.
  - rewrite (rmin_unsigned t S). specialize (U eq_refl). lia.
Qed.

Lemma abs_quot_le : forall a b, b <> 0 -> Z.abs (Z.quot a b) <= Z.abs a.
Proof.
  intros a b Hb. rewrite <- Z.quot_abs by auto.
  rewrite Z.quot_div_nonneg by lia.
  apply Z.div_le_upper_bound; nia.
Qed.

Lemma quot_nonneg : forall a b, 0 <= a -> 0 <= b -> 0 <= Z.quot a b.
Proof.
  intros. destruct (Z.eq_dec b 0) as [->|].
  - now rewrite Zquot_0_r.
  - apply Z.quot_pos; lia.
Qed.

Lemma std_gcd_ok : forall t m n g, std_gcd t m n = Ok g ->
  g = Z.gcd m n /\ in_rep t (Z.abs m) = true /\ in_rep t (Z.abs n) = true.
Proof.
  intros t m n g H. unfold std_gcd in H.
  destruct (in_rep t (Z.abs m)) eqn:E1, (in_rep t (Z.abs n)) eqn:E2;
    cbn in H; try discriminate. inversion H; auto.
Qed.

Lemma std_lcm_ok : forall t m n g, std_lcm t m n = Ok g ->
  g = Z.lcm m n /\ in_rep t (Z.abs m) = true /\ in_rep t (Z.abs n) = true
  /\ in_rep t g = true.
Proof.
  intros t m n g H. unfold std_lcm in H.
  destruct (in_rep t (Z.abs m)) eqn:E1, (in_rep t (Z.abs n)) eqn:E2,
    (in_rep t (Z.lcm m n)) eqn:E3;
    cbn in H; try discriminate. inversion H; subst; auto.
Qed.
