(** Proofs of the statements in Props_Chrono3.v. *)

From Coq Require Import ZArith QArith List Bool Lia.
From Verif Require Import Machine Raw Ops Spec Fraction Mixed_spec Chrono Chrono_spec Chrono2 Defined_spec Chrono3_spec.
From Verif Require Import Machine_proofs Defined_proofs Chrono3_proofs.
Import ListNotations.
Open Scope Z_scope.

Lemma c85_conversion_defined_iff : forall t from to c q n d, signed_rep t -> wf_period from -> wf_period to ->
  is_factor from to n d -> n <= rmax t -> d <= rmax t -> count_bounded (rmax t) c -> count_value c = Some q ->
  (exists r, duration_cast (denote defaults) t from to c = Some (Ok r)) <-> scale_fits (rmax t) q n d.
Proof. exact cast_iff. Qed.

Lemma c85_common_period : forall a b pc, wf_period a -> wf_period b -> common_period a b = Some pc ->
  (exists n m, 0 < n /\ 0 < m /\ (inject_Z n * period_value pc == period_value a)%Q /\
     (inject_Z m * period_value pc == period_value b)%Q) /\
  (forall p n m, wf_period p -> (inject_Z n * period_value p == period_value a)%Q -> (inject_Z m * period_value p == period_value b)%Q ->
     exists k, 0 < k /\ (inject_Z k * period_value p == period_value pc)%Q).
Proof.
  intros a b pc WA WB H. split.
  - destruct (common_period_multiple a b pc WA WB H) as [n [m [N [M [E1 E2]]]]]. exists n, m.
    pose proof (Chrono_proofs.period_pos pc (Chrono_proofs.common_period_ok _ _ _ WA WB H)) as P.
    assert (P0 : ~ (period_value pc == 0)%Q) by (intros Z0; rewrite Z0 in P; now apply (Qlt_irrefl 0)).
    repeat split; auto.
    + setoid_replace (inject_Z n) with (inject_Z n / inject_Z 1)%Q by (change (inject_Z 1) with 1%Q; field).
      rewrite E1. field. auto.
    + setoid_replace (inject_Z m) with (inject_Z m / inject_Z 1)%Q by (change (inject_Z 1) with 1%Q; field).
      rewrite E2. field. auto.
  - intros p n m WP. now apply common_period_greatest.
Qed.

Lemma c85_arith_defined_iff : forall t op pl pr pc l r a b n1 n2, signed_rep t -> wf_period pl -> wf_period pr ->
  common_period pl pr = Some pc -> is_factor pl pc n1 1 -> is_factor pr pc n2 1 -> n1 <= rmax t -> n2 <= rmax t ->
  count_bounded (rmax t) l -> count_bounded (rmax t) r -> count_value l = Some a -> count_value r = Some b ->
  (exists x, duration_arith (denote defaults) t op pl pr l r = Some (pc, Ok x)) <->
  Z.abs (low_num a * n1) <= rmax t /\ Z.abs (low_num b * n2) <= rmax t /\
  enough (rmax t) op (a * inject_Z n1) (b * inject_Z n2).
Proof. intros. now apply two_arith_iff. Qed.

Lemma c85_cmp_defined_iff : forall t pl pr pc l r a b n1 n2, signed_rep t -> wf_period pl -> wf_period pr ->
  common_period pl pr = Some pc -> is_factor pl pc n1 1 -> is_factor pr pc n2 1 -> n1 <= rmax t -> n2 <= rmax t ->
  count_bounded (rmax t) l -> count_bounded (rmax t) r -> count_value l = Some a -> count_value r = Some b ->
  let fits := Z.abs (low_num a * n1) <= rmax t /\ Z.abs (low_num b * n2) <= rmax t /\
    common_fits (rmax t) (a * inject_Z n1) (b * inject_Z n2) in
  ((exists v, duration_eq (denote defaults) t pl pr l r = Some (Ok v)) <-> fits) /\
  ((exists v, duration_lt (denote defaults) t pl pr l r = Some (Ok v)) <-> fits).
Proof.
  intros t pl pr pc l r a b n1 n2 SR WL WR CP F1 F2 N1 N2 BL BR VL VR fits. split.
  - now apply (two_eq_iff t pl pr pc l r a b n1 n2).
  - now apply (two_lt_iff t pl pr pc l r a b n1 n2).
Qed.

Lemma c85_integers_total : forall t pl pr pc s1 s2 x y n1 n2, signed_rep t -> wf_period pl -> wf_period pr ->
  common_period pl pr = Some pc -> is_factor pl pc n1 1 -> is_factor pr pc n2 1 -> n1 <= rmax t -> n2 <= rmax t ->
  in_rep s1 x = true -> in_rep s2 y = true -> Z.abs (x * n1) + Z.abs (y * n2) <= rmax t ->
  (exists v, duration_arith (denote defaults) t Plus pl pr (IntCount s1 x) (IntCount s2 y) = Some (pc, Ok v)) /\
  (exists v, duration_arith (denote defaults) t Minus pl pr (IntCount s1 x) (IntCount s2 y) = Some (pc, Ok v)) /\
  (exists v, duration_eq (denote defaults) t pl pr (IntCount s1 x) (IntCount s2 y) = Some (Ok v)) /\
  (exists v, duration_lt (denote defaults) t pl pr (IntCount s1 x) (IntCount s2 y) = Some (Ok v)).
Proof.
  intros t pl pr pc s1 s2 x y n1 n2 SR WL WR CP F1 F2 N1 N2 I1 I2 H.
  pose proof F1 as [[P1 _] _]. pose proof F2 as [[P2 _] _].
  destruct (low_scaled_int x n1) as [A1 A2]. destruct (low_scaled_int y n2) as [B1 B2].
  destruct (low_int x) as [X1 _]. destruct (low_int y) as [Y1 _].
  assert (BL : count_bounded (rmax t) (IntCount s1 x)) by (split; auto; rewrite Z.abs_mul in H; nia).
  assert (BR : count_bounded (rmax t) (IntCount s2 y)) by (split; auto; rewrite (Z.abs_mul y) in H; nia).
  pose proof (rmax_big t (proj1 SR)) as RB.
  assert (CF : common_fits (rmax t) (inject_Z x * inject_Z n1) (inject_Z y * inject_Z n2)).
  { unfold common_fits, over, least_den. rewrite A1, A2, B1, B2. change (Z.lcm 1 1) with 1. change (1 / 1) with 1. lia. }
  repeat split.
  - apply (two_arith_iff t pl pr pc _ _ (inject_Z x) (inject_Z y) n1 n2); auto. rewrite X1, Y1. repeat split; try apply CF; try lia.
    unfold over, least_den. rewrite A1, A2, B1, B2. change (Z.lcm 1 1) with 1. change (1 / 1) with 1. lia.
  - apply (two_arith_iff t pl pr pc _ _ (inject_Z x) (inject_Z y) n1 n2); auto. rewrite X1, Y1. repeat split; try apply CF; try lia.
    unfold over, least_den. rewrite A1, A2, B1, B2. change (Z.lcm 1 1) with 1. change (1 / 1) with 1. lia.
  - apply (two_eq_iff t pl pr pc _ _ (inject_Z x) (inject_Z y) n1 n2); auto. rewrite X1, Y1. repeat split; try apply CF; lia.
  - apply (two_lt_iff t pl pr pc _ _ (inject_Z x) (inject_Z y) n1 n2); auto. rewrite X1, Y1. repeat split; try apply CF; lia.
Qed.

