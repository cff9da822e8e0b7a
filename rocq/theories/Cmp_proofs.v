(** Comparisons of every policy. *)

From Coq Require Import ZArith QArith Bool Lia Znumtheory Zquot Setoid Morphisms.
From Verif Require Import Machine Raw Ops Spec Machine_proofs Value_proofs Ops_proofs Total_proofs.
Open Scope Z_scope.

Definition zcmp (op : cmp_op) (x y : Z) : bool :=
  match op with
  | Eq => x =? y
  | Ne => negb (x =? y)
  | Lt => x <? y
  | Le => x <=? y
  | Gt => y <? x
  | Ge => y <=? x
  end.

Definition is_eq_op (op : cmp_op) : bool := match op with Eq | Ne => true | _ => false end.

Lemma zcmp_scale : forall op x y k, 0 < k -> zcmp op (x * k) (y * k) = zcmp op x y.
Proof.
  intros op x y k H. destruct op; cbn; try apply (f_equal negb); apply Bool.eq_iff_eq_true;
    rewrite ?Z.eqb_eq, ?Z.ltb_lt, ?Z.leb_le; nia.
Qed.

Lemma zcmp_scale_eq : forall op x y k, is_eq_op op = true -> k <> 0 ->
  zcmp op (x * k) (y * k) = zcmp op x y.
Proof.
  intros op x y k E H. destruct op; try discriminate; cbn; try apply (f_equal negb);
    apply Bool.eq_iff_eq_true; rewrite ?Z.eqb_eq; nia.
Qed.

Lemma leb_ltb : forall x y, (y <=? x) = negb (x <? y).
Proof. intros. now rewrite Z.ltb_antisym, negb_involutive. Qed.

Lemma cmp_value : forall op l r, den l <> 0 -> den r <> 0 ->
  exact_cmp_opt op (value l) (value r) =
  zcmp op (num l * den r * (den l * den r)) (num r * den l * (den l * den r)).
Proof.
  intros op l r Hl Hr. rewrite (value_defined l Hl), (value_defined r Hr).
  cbn [exact_cmp_opt].
  assert (LE : forall a b c d, b <> 0 -> d <> 0 ->
    Qle_bool (inject_Z a / inject_Z b) (inject_Z c / inject_Z d)
    = (a * d * (b * d) <=? c * b * (b * d))).
  { intros. apply Bool.eq_iff_eq_true. rewrite Qle_bool_iff, Z.leb_le. now apply qdiv_le. }
  assert (EQ : Qeq_bool (inject_Z (num l) / inject_Z (den l)) (inject_Z (num r) / inject_Z (den r))
    = (num l * den r * (den l * den r) =? num r * den l * (den l * den r))).
  { apply Bool.eq_iff_eq_true. rewrite Qeq_bool_iff, Z.eqb_eq. rewrite qdiv_eq by auto.
    symmetry. apply Z.mul_cancel_r. nia. }
  destruct op; cbn [exact_cmp zcmp]; rewrite ?EQ, ?LE by auto; try reflexivity;
    try (rewrite Z.ltb_antisym; f_equal); try (f_equal; ring).
Qed.

Ltac unfold_cmp H :=
  cbn [p_cmp safe fast
    p_equal_to_rr p_equal_to_ri p_equal_to_ir
    p_not_equal_to_rr p_not_equal_to_ri p_not_equal_to_ir
    p_less_rr p_less_ri p_less_ir p_less_equal_rr p_less_equal_ri p_less_equal_ir
    p_greater_rr p_greater_ri p_greater_ir
    p_greater_equal_rr p_greater_equal_ri p_greater_equal_ir] in H;
  unfold safe_not_equal_to_rr, safe_not_equal_to_ri, safe_not_equal_to_ir,
    safe_greater_rr, safe_greater_ri, safe_greater_ir,
    safe_greater_equal_rr, safe_greater_equal_ri, safe_greater_equal_ir,
    fast_not_equal_to_rr, fast_not_equal_to_ri, fast_not_equal_to_ir,
    fast_greater_rr, fast_greater_ri, fast_greater_ir,
    fast_greater_equal_rr, fast_greater_equal_ri, fast_greater_equal_ir in H;
  unfold safe_not_equal_to_ri in H;
  unfold safe_equal_to_ir, fast_equal_to_ir in H;
  unfold safe_equal_to_rr, safe_equal_to_ri, safe_less_rr, safe_less_ri, safe_less_ir,
    safe_less_equal_rr, safe_less_equal_ri, safe_less_equal_ir,
    fast_equal_to_rr, fast_equal_to_ri, fast_less_rr, fast_less_ri, fast_less_ir,
    fast_less_equal_rr, fast_less_equal_ri, fast_less_equal_ir in H.

(** The integers compared by the base policies, as a function of the operands:
    [safe] compares numerators over the least common denominator, [fast] cross
    products; with an integer operand both compare with the product. *)
Definition safe_sides (t : rep) (a : args) : res (Z * Z) :=
  match a with
  | RR l r =>
      do lcm <- std_lcm t (den l) (den r);
      do a <- m_div t lcm (den l); do a <- m_mul t a (num l);
      do b <- m_div t lcm (den r); do b <- m_mul t b (num r);
      Ok (a, b)
  | RI l z => do p <- m_mul t z (den l); Ok (num l, p)
  | IR z r => do p <- m_mul t z (den r); Ok (p, num r)
  end.

Definition fast_sides (t : rep) (a : args) : res (Z * Z) :=
  match a with
  | RR l r =>
      do a <- m_mul t (num l) (den r);
      do b <- m_mul t (num r) (den l);
      Ok (a, b)
  | RI l z => do p <- m_mul t z (den l); Ok (num l, p)
  | IR z r => do p <- m_mul t z (den r); Ok (p, num r)
  end.

Lemma is_defined_den : forall v, den v <> 0 -> is_defined v = true.
Proof. intros. now apply is_defined_iff. Qed.
Lemma is_undefined_den : forall v, den v <> 0 -> is_undefined v = false.
Proof. intros. unfold is_undefined. now rewrite is_defined_den. Qed.
Lemma is_defined_zero : forall v, den v = 0 -> is_defined v = false.
Proof. intros v H. unfold is_defined. now rewrite H. Qed.
Lemma is_undefined_zero : forall v, den v = 0 -> is_undefined v = true.
Proof. intros v H. unfold is_undefined. now rewrite is_defined_zero. Qed.

Lemma std_lcm_comm : forall t x y, std_lcm t x y = std_lcm t y x.
Proof.
  intros. unfold std_lcm. rewrite (Z.lcm_comm x y).
  destruct (in_rep t (Z.abs x)), (in_rep t (Z.abs y)); reflexivity.
Qed.

Lemma safe_cmp_sides : forall t op a b, defined_args a ->
  p_cmp safe t op a = Ok b ->
  exists x y, safe_sides t a = Ok (x, y) /\ b = zcmp op x y.
Proof.
  intros t op a b D H. apply defined_args_raw in D as [Dl Dr].
  destruct op, a as [l r|l z|z l]; cbn [lraw rraw den] in Dl, Dr; unfold_cmp H;
    rewrite ?is_undefined_den, ?is_defined_den in H by auto; cbn [orb] in H;
    rewrite ?andb_true_r in H; cbn [safe_sides];
    try (rewrite (std_lcm_comm t (den r) (den l)) in H);
    inv_all; do 2 eexists;
    (split;
     [repeat (first [progress cbn [bind]
       | match goal with E : ?x = Ok _ |- context [bind ?x _] => rewrite E end]); reflexivity
     |cbn [zcmp]]);
    rewrite ?andb_true_r; try reflexivity; try (now rewrite Z.eqb_sym).
Qed.

Lemma fast_cmp_sides : forall t op a b, defined_args a ->
  p_cmp fast t op a = Ok b ->
  exists x y, fast_sides t a = Ok (x, y) /\ b = zcmp op x y.
Proof.
  intros t op a b D H. apply defined_args_raw in D as [Dl Dr].
  destruct op, a as [l r|l z|z l]; cbn [lraw rraw den] in Dl, Dr; unfold_cmp H;
    rewrite ?is_undefined_den, ?is_defined_den in H by auto; cbn [fast_sides];
    inv_all; do 2 eexists;
    (split;
     [repeat (first [progress cbn [bind]
       | match goal with E : ?x = Ok _ |- context [bind ?x _] => rewrite E end]); reflexivity
     |cbn [zcmp]]);
    rewrite ?andb_true_r; try reflexivity; try (now rewrite Z.eqb_sym).
Qed.

Lemma cmp_args : forall op a, defined_args a ->
  exact_cmp_opt op (left_value a) (right_value a) =
  zcmp op (num (lraw a) * den (rraw a) * (den (lraw a) * den (rraw a)))
          (num (rraw a) * den (lraw a) * (den (lraw a) * den (rraw a))).
Proof.
  intros op a D. apply defined_args_raw in D as [Dl Dr].
  rewrite (exact_cmp_opt_proper op op eq_refl _ _ (left_value_raw a) _ _ (right_value_raw a)).
  now apply cmp_value.
Qed.

(** The sides compared by [safe] and [fast] against the exact comparison. *)
Lemma safe_sides_exact : forall t op a x y, rsigned t = true -> defined_args a ->
  safe_sides t a = Ok (x, y) ->
  (is_eq_op op = true \/ positive_dens a \/ exists l r, a = RR l r) ->
  zcmp op x y = exact_cmp_opt op (left_value a) (right_value a).
Proof.
  intros t op a x y S D H C. rewrite cmp_args by auto.
  apply defined_args_raw in D as [Dl Dr].
  destruct a as [l r|l z|z l]; cbn [lraw rraw den num safe_sides] in *; inv_all; signed_facts S.
  - apply std_lcm_ok in E as [-> _].
    destruct (lcm_parts _ _ Dl Dr) as [k1 [k2 [K1 [K2 [Q1 [Q2 [P [N1 [N2 _]]]]]]]]].
    rewrite Q1, Q2 in *. subst a0 a2. clear Q1 Q2. subst x y.
    set (m := Z.lcm (den l) (den r)) in *. clearbody m.
    rewrite <- (zcmp_scale op (num l * den r * (den l * den r)) _ m) by auto.
    rewrite <- (zcmp_scale op (k1 * num l) _ ((den l * den r) * (den l * den r))) by nia.
    f_equal; [transitivity (num l * den r * (den l * den r) * (den l * k1)); [ring|now rewrite <- K1]
             |transitivity (num r * den l * (den l * den r) * (den r * k2)); [ring|now rewrite <- K2]].
  - subst y. rewrite !Z.mul_1_r. destruct C as [C|[C|[? [? C]]]]; [| |discriminate].
    + symmetry. now apply zcmp_scale_eq.
    + symmetry. apply zcmp_scale. exact C.
  - subst x. rewrite !Z.mul_1_r, !Z.mul_1_l. destruct C as [C|[C|[? [? C]]]]; [| |discriminate].
    + symmetry. now apply zcmp_scale_eq.
    + symmetry. apply zcmp_scale. exact C.
Qed.

Lemma fast_sides_exact : forall t op a x y, rsigned t = true -> defined_args a ->
  fast_sides t a = Ok (x, y) ->
  (is_eq_op op = true \/ positive_dens a \/ exists l r, a = RR l r /\ 0 < den l * den r) ->
  zcmp op x y = exact_cmp_opt op (left_value a) (right_value a).
Proof.
  intros t op a x y S D H C. rewrite cmp_args by auto.
  apply defined_args_raw in D as [Dl Dr].
  destruct a as [l r|l z|z l]; cbn [lraw rraw den num fast_sides] in *; inv_all; signed_facts S.
  - subst x y. destruct C as [C|[C|[l' [r' [C1 C2]]]]].
    + symmetry. apply zcmp_scale_eq; auto. nia.
    + cbn in C. symmetry. apply zcmp_scale. nia.
    + inversion C1; subst. symmetry. now apply zcmp_scale.
  - subst y. rewrite !Z.mul_1_r. destruct C as [C|[C|[? [? [C _]]]]]; [| |discriminate].
    + symmetry. now apply zcmp_scale_eq.
    + symmetry. apply zcmp_scale. exact C.
  - subst x. rewrite !Z.mul_1_r, !Z.mul_1_l. destruct C as [C|[C|[? [? [C _]]]]]; [| |discriminate].
    + symmetry. now apply zcmp_scale_eq.
    + symmetry. apply zcmp_scale. exact C.
Qed.

(** Undefined operands. *)
Definition undefined_args (a : args) : Prop := ~ defined_args a.

Lemma undefined_result : forall op a, ~ defined_args a ->
  exact_cmp_opt op (left_value a) (right_value a) = match op with Ne => true | _ => false end.
Proof.
  intros op a H. unfold defined_args in H.
  destruct (left_value a), (right_value a); cbn; auto.
  exfalso. apply H. split; discriminate.
Qed.

Lemma undefined_args_raw : forall a, ~ defined_args a -> den (lraw a) = 0 \/ den (rraw a) = 0.
Proof.
  intros a H. rewrite defined_args_raw in H.
  destruct (Z.eq_dec (den (lraw a)) 0), (Z.eq_dec (den (rraw a)) 0); tauto.
Qed.

Lemma safe_cmp_undefined : forall t op a b, ~ defined_args a -> p_cmp safe t op a = Ok b ->
  b = match op with Ne => true | _ => false end.
Proof.
  intros t op a b D H. apply undefined_args_raw in D.
  destruct op, a as [l r|l z|z l]; cbn [lraw rraw den] in D; unfold_cmp H;
    destruct D as [D|D]; try discriminate;
    rewrite ?(is_undefined_zero _ D) in H;
    rewrite ?orb_true_r in H; cbn [orb] in H; inv_all;
    rewrite ?(is_defined_zero _ D), ?andb_false_r; reflexivity.
Qed.

Lemma fast_cmp_undefined : forall t op a b, ~ defined_args a -> p_cmp fast t op a = Ok b ->
  b = match op with Ne => true | _ => false end.
Proof.
  intros t op a b D H. apply undefined_args_raw in D.
  destruct op, a as [l r|l z|z l]; cbn [lraw rraw den] in D; unfold_cmp H;
    destruct D as [D|D]; try discriminate; inv_all;
    rewrite ?(is_defined_zero _ D), ?andb_false_r; reflexivity.
Qed.

Lemma denote_cmp_undefined : forall o t op a b, wf_rep t -> wf_args t a ->
  ~ defined_args a -> p_cmp (denote o) t op a = Ok b ->
  b = match op with Ne => true | _ => false end.
Proof.
  induction o as [| |o IH m|o IH m]; intros t op a b W A D H; cbn [denote] in H.
  - eapply safe_cmp_undefined; eauto.
  - eapply fast_cmp_undefined; eauto.
  - rewrite ri_cmp_eq in H. inv_bind H. apply reduce_args_spec in E as [W' R]; auto.
    eapply IH; eauto. now rewrite (args_reduce_defined _ _ _ R).
  - rewrite ro_cmp_eq in H. eauto.
Qed.

(** Positivity and same-sign of denominators under reduction. *)
Lemma args_reduce_positive : forall a b, args_reduce ignore_signs_mode a b ->
  positive_dens a -> positive_dens b.
Proof.
  intros a b H P. destruct a, b; cbn in *; try tauto; destruct H as [H1 H2]; subst;
  repeat match goal with H : reduces_to _ _ _ |- _ => apply reduces_den_sign in H end; lia.
Qed.

Lemma args_reduce_normal : forall a b, args_reduce normalize_signs_mode a b ->
  defined_args a -> positive_dens b.
Proof.
  intros a b H D. apply defined_args_raw in D as [Dl Dr].
  destruct a, b; cbn in *; try tauto; destruct H as [H1 H2]; subst;
  repeat match goal with H : reduces_to _ _ _ |- _ => apply reduces_den_pos in H; [|assumption] end; auto.
Qed.

Lemma args_reduce_same_sign : forall l r b, args_reduce ignore_signs_mode (RR l r) b ->
  0 < den l * den r -> exists l' r', b = RR l' r' /\ 0 < den l' * den r'.
Proof.
  intros l r b H P. destruct b as [l' r'| |]; cbn in H; try tauto. destruct H as [H1 H2].
  exists l', r'. split; auto.
  apply reduces_den_sign in H1, H2.
  assert (Z.sgn (den l' * den r') = Z.sgn (den l * den r)) by (rewrite !Z.sgn_mul; congruence).
  lia.
Qed.

Definition cmp_ok (o : ops) (op : cmp_op) (a : args) : Prop :=
  is_eq_op op = true \/ order_domain o a.

Lemma order_domain_positive : forall o a, positive_dens a -> order_domain o a.
Proof. intros. right. now left. Qed.

Lemma denote_cmp_defined : forall o t op a b, wf_rep t -> rsigned t = true -> wf_args t a ->
  defined_args a -> cmp_ok o op a -> p_cmp (denote o) t op a = Ok b ->
  b = exact_cmp_opt op (left_value a) (right_value a).
Proof.
  induction o as [| |o IH m|o IH m]; intros t op a b W S A D C H; cbn [denote] in H.
  - apply safe_cmp_sides in H as [x [y [E ->]]]; auto.
    eapply safe_sides_exact; eauto. destruct C as [C|[C|[C|C]]]; auto; [discriminate|].
    destruct a; try tauto. eauto.
  - apply fast_cmp_sides in H as [x [y [E ->]]]; auto.
    eapply fast_sides_exact; eauto. destruct C as [C|[C|[C|C]]]; auto; [discriminate|].
    destruct a; try tauto. destruct C; [discriminate|].
    right; right. eauto.
  - rewrite ri_cmp_eq in H. inv_bind H. apply reduce_args_spec in E as [W' R]; auto.
    apply IH in H; auto.
    + rewrite H. now rewrite (args_reduce_left _ _ _ R), (args_reduce_right _ _ _ R).
    + now rewrite (args_reduce_defined _ _ _ R).
    + destruct C as [C|C]; [now left|right].
      destruct m; [now apply order_domain_positive, (args_reduce_normal _ _ R)|].
      destruct C as [C|[C|C]].
      * now left.
      * apply order_domain_positive. eapply args_reduce_positive; eauto.
      * right; right. destruct a as [l r| |]; try tauto. destruct C as [C|C].
        -- destruct a0; cbn in R; tauto.
        -- destruct (args_reduce_same_sign _ _ _ R C) as [l' [r' [-> P]]]. now right.
  - rewrite ro_cmp_eq in H. eapply IH; eauto.
Qed.

Theorem denote_cmp : forall o t op a b, wf_rep t -> rsigned t = true -> wf_args t a ->
  cmp_ok o op a -> p_cmp (denote o) t op a = Ok b ->
  b = exact_cmp_opt op (left_value a) (right_value a).
Proof.
  intros o t op a b W S A C H.
  destruct (left_value a) eqn:L, (right_value a) eqn:R.
  1:{ rewrite <- L, <- R. eapply denote_cmp_defined; eauto. split; congruence. }
  all: erewrite (denote_cmp_undefined o t op a b); eauto; unfold defined_args; try tauto.
Qed.
