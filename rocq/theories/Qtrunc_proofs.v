(** Integer part and truncated remainder of rationals. *)

From Coq Require Import ZArith QArith Qabs Bool Lia Lqa.
From Verif Require Import Machine Raw Ops Spec.
Open Scope Z_scope.

Lemma Qtrunc_pos : forall q, (0 <= q)%Q ->
  (inject_Z (Qtrunc q) <= q)%Q /\ (q < inject_Z (Qtrunc q) + 1)%Q.
Proof.
  intros [n d] H. unfold Qtrunc; cbn [Qnum Qden].
  assert (0 <= n) by (unfold Qle in H; cbn in H; lia).
  pose proof (Z.quot_rem' n (Zpos d)). pose proof (Z.rem_bound_pos n (Zpos d) ltac:(lia) ltac:(lia)).
  unfold Qle, Qlt, Qplus, inject_Z; cbn [Qnum Qden]. rewrite Pos.mul_1_l. split; lia.
Qed.

Lemma Qtrunc_neg : forall q, (q <= 0)%Q ->
  (q <= inject_Z (Qtrunc q))%Q /\ (inject_Z (Qtrunc q) - 1 < q)%Q.
Proof.
  intros [n d] H. unfold Qtrunc; cbn [Qnum Qden].
  assert (n <= 0) by (unfold Qle in H; cbn in H; lia).
  pose proof (Z.quot_rem' n (Zpos d)).
  assert (-Zpos d < Z.rem n (Zpos d) <= 0).
  { pose proof (Z.rem_opp_l n (Zpos d) ltac:(lia)).
    pose proof (Z.rem_bound_pos (-n) (Zpos d) ltac:(lia) ltac:(lia)). lia. }
  unfold Qle, Qlt, Qminus, Qopp, Qplus, inject_Z; cbn [Qnum Qden]. rewrite Pos.mul_1_l. split; lia.
Qed.

Lemma Qtrunc_unique : forall q k,
  ((0 <= inject_Z k <= q)%Q /\ (q < inject_Z k + 1)%Q) \/
  ((q <= inject_Z k <= 0)%Q /\ (inject_Z k - 1 < q)%Q) -> Qtrunc q = k.
Proof.
  assert (C : forall a b, (inject_Z a < inject_Z b + 1)%Q -> a <= b).
  { intros a b H. assert (E : (inject_Z b + 1 == inject_Z (b + 1))%Q) by (rewrite inject_Z_plus; reflexivity).
    rewrite E, <- Zlt_Qlt in H. lia. }
  intros q k [[[H1 H2] H3]|[[H1 H2] H3]].
  - destruct (Qtrunc_pos q) as [K1 K2]; [lra|]. apply Z.le_antisymm; apply C; lra.
  - destruct (Qtrunc_neg q) as [K1 K2]; [lra|]. apply Z.le_antisymm; apply C; lra.
Qed.

Lemma Qtrunc_sign : forall q, ((0 <= q)%Q -> 0 <= Qtrunc q) /\ ((q <= 0)%Q -> Qtrunc q <= 0).
Proof.
  intros [n d]. unfold Qtrunc, Qle; cbn. split; intros H.
  - apply Z.quot_pos; lia.
  - pose proof (Z.quot_opp_l n (Zpos d) ltac:(lia)). pose proof (Z.quot_pos (- n) (Zpos d)). lia.
Qed.

(** x - y * trunc(x/y): the remainder with the sign of x. *)
Lemma truncated_remainder : forall x y, ~ (y == 0)%Q ->
  let r := (x - y * inject_Z (Qtrunc (x / y)))%Q in
  (Qabs r < Qabs y)%Q /\ (0 <= x -> 0 <= r)%Q /\ (x <= 0 -> r <= 0)%Q.
Proof.
  intros x y Hy r.
  set (q := (x / y)%Q) in *. set (k := inject_Z (Qtrunc q)) in *.
  assert (E : (x == y * q)%Q) by (unfold q; field; auto).
  assert (Er : (r == y * (q - k))%Q) by (unfold r; rewrite E at 1; ring).
  assert (D : (0 <= q /\ 0 <= q - k <= q /\ q - k < 1)%Q \/ (q <= 0 /\ q <= q - k <= 0 /\ - (1) < q - k)%Q).
  { destruct (Qlt_le_dec q 0) as [H|H].
    - right. destruct (Qtrunc_neg q) as [H1 H2]; [lra|]. fold k in H1, H2.
      assert (k <= 0)%Q; [|lra]. unfold k. change 0%Q with (inject_Z 0). rewrite <- Zle_Qle.
      apply (proj2 (Qtrunc_sign q)). lra.
    - left. destruct (Qtrunc_pos q) as [H1 H2]; [lra|]. fold k in H1, H2.
      assert (0 <= k)%Q; [|lra]. unfold k. change 0%Q with (inject_Z 0). rewrite <- Zle_Qle.
      apply (proj1 (Qtrunc_sign q)). lra. }
  clearbody r k q. set (f := (q - k)%Q) in *. clearbody f.
  assert (Yc : (0 < y)%Q \/ (y < 0)%Q).
  { destruct (Q_dec y 0) as [[?|?]|?]; auto. contradiction. }
  rewrite Er. split.
  - rewrite Qabs_Qmult.
    assert (A : (Qabs f < 1)%Q) by (apply Qabs_case; intros; lra).
    assert (B : (0 < Qabs y)%Q) by (apply Qabs_case; intros; destruct Yc; lra).
    rewrite <- (Qmult_1_r (Qabs y)) at 2. apply Qmult_lt_l; auto.
  - rewrite E. split; intros H; destruct Yc as [Y|Y], D as [[D1 [D2 D3]]|[D1 [D2 D3]]]; nra.
Qed.
