(** Where the order comparisons come out reversed: negative denominators. *)

From Coq Require Import ZArith QArith Bool Lia.
From Verif Require Import Machine Raw Ops Spec Machine_proofs Value_proofs Ops_proofs Total_proofs Cmp_proofs.
Open Scope Z_scope.

Lemma zcmp_scale_neg : forall op x y k, k < 0 -> zcmp (reverse op) (x * k) (y * k) = zcmp op x y.
Proof.
  intros op x y k H. destruct op; cbn; try apply (f_equal negb); apply Bool.eq_iff_eq_true;
    rewrite ?Z.eqb_eq, ?Z.ltb_lt, ?Z.leb_le; nia.
Qed.

Lemma int_sides_reversed : forall t op a x y, rsigned t = true -> defined_args a ->
  fast_sides t a = Ok (x, y) ->
  match a with RR l r => den l * den r < 0 | RI l _ => den l < 0 | IR _ r => den r < 0 end ->
  zcmp op x y = exact_cmp_opt (reverse op) (left_value a) (right_value a).
Proof.
  intros t op a x y S D H C. rewrite cmp_args by auto.
  apply defined_args_raw in D as [Dl Dr].
  destruct a as [l r|l z|z l]; cbn [lraw rraw den num fast_sides] in *; inv_all; signed_facts S.
  - subst x y. symmetry. now apply zcmp_scale_neg.
  - subst y. rewrite !Z.mul_1_r. symmetry. now apply zcmp_scale_neg.
  - subst x. rewrite !Z.mul_1_r, !Z.mul_1_l. symmetry. now apply zcmp_scale_neg.
Qed.

Lemma args_reduce_reversed : forall o a b, args_reduce ignore_signs_mode a b ->
  reversed_domain o a -> reversed_domain o b.
Proof.
  intros o a b R [N C]. split; auto.
  destruct a as [l r|l z|z l], b as [l' r'|l' z'|z' l']; cbn in R; try tauto; destruct R as [R1 R2]; subst.
  - destruct C as [C1 C2]. split; auto. apply reduces_den_sign in R1, R2.
    assert (Z.sgn (den l' * den r') = Z.sgn (den l * den r)) by (rewrite !Z.sgn_mul; congruence).
    lia.
  - apply reduces_den_sign in R1. lia.
  - apply reduces_den_sign in R2. lia.
Qed.

Theorem denote_cmp_reversed : forall o t op a b, wf_rep t -> rsigned t = true -> wf_args t a ->
  defined_args a -> reversed_domain o a -> p_cmp (denote o) t op a = Ok b ->
  b = exact_cmp_opt (reverse op) (left_value a) (right_value a).
Proof.
  induction o as [| |o IH m|o IH m]; intros t op a b W S A D C H; cbn [denote] in H.
  - apply safe_cmp_sides in H as [x [y [E ->]]]; auto. destruct C as [_ C].
    destruct a as [l r|l z|z l]; [destruct C; discriminate| |];
      apply (int_sides_reversed t op _ x y); auto.
  - apply fast_cmp_sides in H as [x [y [E ->]]]; auto. destruct C as [_ C].
    apply (int_sides_reversed t op _ x y); auto. destruct a; tauto.
  - rewrite ri_cmp_eq in H. inv_bind H. destruct m; [destruct C as [C _]; discriminate|].
    apply reduce_args_spec in E as [W' R]; auto.
    apply IH in H; auto.
    + rewrite H. now rewrite (args_reduce_left _ _ _ R), (args_reduce_right _ _ _ R).
    + now rewrite (args_reduce_defined _ _ _ R).
    + now apply (args_reduce_reversed o a).
  - rewrite ro_cmp_eq in H. eauto.
Qed.

(** Every comparison of defined operands is exact or reversed. *)
Lemma domains_cover : forall o a, defined_args a -> order_domain o a \/ reversed_domain o a.
Proof.
  intros o a D. apply defined_args_raw in D as [Dl Dr].
  unfold order_domain, reversed_domain.
  destruct (normalises_inputs o); auto.
  destruct a as [l r|l z|z l]; cbn [lraw rraw den positive_dens] in *.
  - destruct (built_on_safe o); auto. assert (0 < den l * den r \/ den l * den r < 0) by nia. tauto.
  - assert (0 < den l \/ den l < 0) by lia. tauto.
  - assert (0 < den l \/ den l < 0) by lia. tauto.
Qed.
