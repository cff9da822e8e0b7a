(** Proofs about fraction literals. *)

From Coq Require Import ZArith QArith List Bool Lia.
From Verif Require Import Machine Raw Ops Spec Fraction Parse Literals Literals_spec.
From Verif Require Import Machine_proofs Value_proofs Ops_proofs Algebra_proofs Fraction_proofs Limits_proofs.
Import ListNotations.
Open Scope Z_scope.

Lemma literal_int_ok : forall t n d, wf_rep t -> in_rep t d = true -> literal_divide_int t n d = mkRaw n d.
Proof. intros t n d W D. unfold literal_divide_int, cast. now rewrite wrap_id. Qed.

Lemma wf_int64 : wf_rep int64.
Proof. unfold wf_rep. cbn. lia. Qed.

Lemma literal_neg_eq : forall d, - 2 ^ 63 < d < 2 ^ 63 -> literal_negate d = Ok (- d).
Proof.
  intros d D. unfold literal_negate, cast, m_neg.
  change (2 ^ 63) with 9223372036854775808 in D.
  rewrite wrap_id; [|exact wf_int64|apply in_rep_iff; cbn; lia].
  apply arith_in; [exact wf_int64|apply in_rep_iff; cbn; lia].
Qed.

Lemma literal_negate_ok : forall t n d, wf_rep t -> 0 <= d < 2 ^ 63 -> in_rep t (- d) = true ->
  exists v, literal_negate (literal_fr d) = Ok v /\ literal_divide_int t n v = mkRaw n (- d).
Proof.
  intros t n d W D R. exists (- d). unfold literal_fr. rewrite literal_neg_eq by lia.
  split; auto. now apply literal_int_ok.
Qed.

Lemma literal_double_negate : forall d, 0 <= d < 2 ^ 63 ->
  (do v <- literal_negate (literal_fr d); literal_negate v) = Ok d.
Proof.
  intros d D. unfold literal_fr. rewrite literal_neg_eq by lia. cbn [bind].
  rewrite literal_neg_eq by lia. f_equal. lia.
Qed.

Lemma literal_divide_fraction_exact : forall o t f d r,
  wf_rep t -> rsigned t = true -> wf_raw t f -> in_rep t d = true ->
  literal_divide_fraction (denote o) t f (literal_fr d) = Ok r ->
  same_value (value r) (exact_opt Divides (value f) (Some (inject_Z d))).
Proof.
  intros o t f d r W S A D H. unfold literal_divide_fraction, literal_fr, cast in H.
  rewrite wrap_id in H; auto. rewrite f_arith_self in H.
  apply (denote_exact_opt o t Divides (RI f d) r); auto; [split; auto|].
  right. right. discriminate.
Qed.

Definition opt_mul (x y : option Q) : option Q :=
  match x, y with Some a, Some b => Some (a * b)%Q | _, _ => None end.

Lemma chain_step_value : forall x a b y,
  same_value (opt_mul (exact_opt Divides (exact_opt Multiplies x (Some (inject_Z a))) (Some (inject_Z b))) y)
    (opt_mul x (match quotient a b, y with Some p, Some q => Some (p * q)%Q | _, _ => None end)).
Proof.
  intros [x|] a b y; cbn [opt_mul exact_opt exact same_value]; [|destruct y; exact I].
  unfold quotient. destruct (Z.eqb_spec b 0) as [->|N].
  - cbn. exact I.
  - replace (Qeq_bool (inject_Z b) 0) with false.
    + destruct y as [y|]; cbn [opt_mul same_value]; [|exact I]. field. now apply iz_nz.
    + symmetry. apply not_true_is_false. intros E. apply Qeq_bool_iff in E. now apply iz_nz in E.
Qed.

Lemma opt_mul_same : forall x x' y, same_value x x' -> same_value (opt_mul x y) (opt_mul x' y).
Proof.
  intros [x|] [x'|] [y|] H; cbn in *; try contradiction; auto. now rewrite H.
Qed.

Lemma same_trans : forall x y z, same_value x y -> same_value y z -> same_value x z.
Proof.
  intros [x|] [y|] [z|] A B; cbn in *; try contradiction; auto. now rewrite A.
Qed.

Lemma same_sym : forall x y, same_value x y -> same_value y x.
Proof. intros [x|] [y|] A; cbn in *; try contradiction; auto. now symmetry. Qed.

Lemma same_refl : forall x, same_value x x.
Proof. intros [x|]; cbn; auto. reflexivity. Qed.

Lemma literal_chain_from_exact : forall o t l acc r,
  wf_rep t -> rsigned t = true -> wf_raw t acc ->
  (forall x y, In (x, y) l -> in_rep t x = true /\ in_rep t y = true) ->
  literal_chain_from (denote o) t acc l = Ok r ->
  same_value (value r) (opt_mul (value acc) (quotient_product l)).
Proof.
  intros o t l. induction l as [|[a b] l IH]; intros acc r W S A F H.
  - inversion H; subst. cbn. destruct (value r) as [q|]; cbn; auto. ring.
  - cbn [literal_chain_from] in H. destruct (F a b) as [Fa Fb]; [now left|]. inv_bind H.
    rewrite f_arith_self in E.
    assert (WA : wf_args t (RI acc a)) by (split; auto).
    pose proof (arith_wf _ _ _ _ _ W WA E) as W1.
    pose proof (denote_exact_opt o t Multiplies (RI acc a) a0 W S WA ltac:(left; discriminate) E) as V1.
    pose proof (literal_divide_fraction_exact o t a0 b a1 W S W1 Fb E0) as V2.
    unfold literal_divide_fraction, literal_fr, cast in E0. rewrite wrap_id in E0; auto.
    rewrite f_arith_self in E0.
    assert (WB : wf_args t (RI a0 b)) by (split; auto).
    pose proof (arith_wf _ _ _ _ _ W WB E0) as W2.
    eapply same_trans; [apply IH; eauto; intros x y I; apply F; now right|].
    cbn [quotient_product].
    eapply same_trans; [|apply chain_step_value].
    apply opt_mul_same. eapply same_trans; [exact V2|]. apply exact_opt_same. exact V1.
Qed.

Lemma literal_chain_exact : forall o t a b l r,
  wf_rep t -> rsigned t = true -> in_rep t a = true -> in_rep t b = true ->
  (forall x y, In (x, y) l -> in_rep t x = true /\ in_rep t y = true) ->
  literal_chain (denote o) t a b l = Ok r ->
  same_value (value r) (quotient_product ((a, b) :: l)).
Proof.
  intros o t a b l r W S Fa Fb F H. unfold literal_chain, literal_fr in H. rewrite literal_int_ok in H; auto.
  eapply same_trans; [eapply literal_chain_from_exact; eauto; split; auto|].
  cbn [quotient_product]. unfold value, quotient. cbn [num den].
  destruct (b =? 0); cbn [opt_mul]; destruct (quotient_product l); apply same_refl.
Qed.
