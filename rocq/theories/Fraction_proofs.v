(** Operators across representations, assignment sequences, expressions. *)

From Coq Require Import ZArith QArith Bool Lia List.
From Verif Require Import Machine Raw Ops Spec Fraction Fraction_spec.
From Verif Require Import Machine_proofs Value_proofs Ops_proofs Total_proofs Cmp_proofs Order_proofs Algebra_proofs.
Import ListNotations.
Open Scope Z_scope.

(** ** Conversions *)

Lemma rep_eqb_true : forall a b, rep_eqb a b = true -> a = b.
Proof.
  intros [s1 b1] [s2 b2] H. unfold rep_eqb in H. cbn [rsigned rbits] in H.
  apply andb_true_iff in H as [H1 H2]. apply eqb_prop in H1. apply Z.eqb_eq in H2. congruence.
Qed.
Lemma rep_eqb_refl : forall a, rep_eqb a a = true.
Proof. intros [s b]. unfold rep_eqb. cbn. now rewrite eqb_reflx, Z.eqb_refl. Qed.

Lemma conv_int_id : forall s t z, wf_rep t -> in_rep t z = true -> conv_int s t z = z.
Proof.
  intros s t z W H. unfold conv_int, cast. destruct (rep_eqb s t); auto. now apply wrap_id.
Qed.
Lemma conv_raw_id : forall s t r, wf_rep t -> wf_raw t r -> conv_raw s t r = r.
Proof.
  intros s t [n d] W [H1 H2]. unfold conv_raw, raw_cast, cast. destruct (rep_eqb s t); auto.
  cbn [num den] in *. now rewrite !wrap_id.
Qed.
Lemma conv_int_in : forall s t z, wf_rep t -> in_rep s z = true -> in_rep t (conv_int s t z) = true.
Proof.
  intros s t z W H. unfold conv_int, cast. destruct (rep_eqb s t) eqn:E.
  - now rewrite <- (rep_eqb_true _ _ E).
  - now apply wrap_in.
Qed.
Lemma conv_raw_wf : forall s t r, wf_rep t -> wf_raw s r -> wf_raw t (conv_raw s t r).
Proof.
  intros s t [n d] W H. unfold conv_raw, raw_cast, cast. destruct (rep_eqb s t) eqn:E.
  - now rewrite <- (rep_eqb_true _ _ E).
  - split; now apply wrap_in.
Qed.

(** The range of a type and of a wider or more capable one. *)
Definition range_le (s t : rep) : Prop := rmin t <= rmin s /\ rmax s <= rmax t.

Lemma range_le_in : forall s t z, range_le s t -> in_rep s z = true -> in_rep t z = true.
Proof. intros s t z [H1 H2] H. rewrite in_rep_iff in *. lia. Qed.

Lemma range_le_same : forall s t, rsigned s = rsigned t -> 0 < rbits s <= rbits t -> range_le s t.
Proof.
  intros s t E B. unfold range_le, rmin, rmax. rewrite E.
  assert (2 ^ (rbits s - 1) <= 2 ^ (rbits t - 1)) by (apply Z.pow_le_mono_r; lia).
  assert (2 ^ (rbits s) <= 2 ^ (rbits t)) by (apply Z.pow_le_mono_r; lia).
  destruct (rsigned t); lia.
Qed.
Lemma range_le_mixed : forall s t, rsigned s = false -> rsigned t = true -> 0 < rbits s < rbits t -> range_le s t.
Proof.
  intros s t E E' B. unfold range_le, rmin, rmax. rewrite E, E'.
  assert (2 ^ (rbits s) <= 2 ^ (rbits t - 1)) by (apply Z.pow_le_mono_r; lia).
  assert (0 < 2 ^ rbits s) by (apply Z.pow_pos_nonneg; lia). lia.
Qed.

Lemma common_signed_ranges : forall a b, 0 < rbits a -> 0 < rbits b ->
  rsigned (common_rep a b) = true -> range_le a (common_rep a b) /\ range_le b (common_rep a b).
Proof.
  intros a b A B H. unfold common_rep in *.
  destruct (Bool.eqb (rsigned a) (rsigned b)) eqn:E.
  - apply eqb_prop in E. destruct (Z.ltb_spec (rbits a) (rbits b)); split;
      apply range_le_same; auto; lia.
  - apply eqb_false_iff in E. destruct (rsigned a) eqn:Sa.
    + destruct (rsigned b) eqn:Sb; [congruence|].
      destruct (Z.leb_spec (rbits a) (rbits b)); [congruence|]. split.
      * apply range_le_same; auto; lia.
      * apply range_le_mixed; auto; lia.
    + destruct (rsigned b) eqn:Sb; [|congruence].
      destruct (Z.leb_spec (rbits b) (rbits a)); [congruence|]. split.
      * apply range_le_mixed; auto; lia.
      * apply range_le_same; auto; lia.
Qed.

Lemma common_rmax : forall a b, 0 < rbits a -> 0 < rbits b ->
  rmax a <= rmax (common_rep a b) /\ rmax b <= rmax (common_rep a b).
Proof.
  intros a b A B.
  assert (M : forall x y, 0 < rbits x <= rbits y -> (rsigned y = true -> rsigned x = true \/ rbits x < rbits y) ->
              rmax x <= rmax y).
  { intros x y L S. unfold rmax.
    assert (2 ^ (rbits x - 1) <= 2 ^ (rbits y - 1)) by (apply Z.pow_le_mono_r; lia).
    assert (2 ^ (rbits x) <= 2 ^ (rbits y)) by (apply Z.pow_le_mono_r; lia).
    assert (2 ^ (rbits x - 1) <= 2 ^ (rbits x)) by (apply Z.pow_le_mono_r; lia).
    destruct (rsigned y) eqn:Sy, (rsigned x) eqn:Sx; try lia.
    destruct (S eq_refl) as [|S']; [discriminate|].
    assert (2 ^ (rbits x) <= 2 ^ (rbits y - 1)) by (apply Z.pow_le_mono_r; lia). lia. }
  unfold common_rep.
  destruct (Bool.eqb (rsigned a) (rsigned b)) eqn:E.
  - apply eqb_prop in E. destruct (Z.ltb_spec (rbits a) (rbits b)); split; apply M; try lia; intros; left; congruence.
  - apply eqb_false_iff in E. destruct (rsigned a) eqn:Sa; destruct (rsigned b) eqn:Sb; try congruence.
    + destruct (Z.leb_spec (rbits a) (rbits b)); split; apply M; try lia; intros; try congruence; auto; right; lia.
    + destruct (Z.leb_spec (rbits b) (rbits a)); split; apply M; try lia; intros; try congruence; auto; right; lia.
Qed.

Lemma common_wf : forall a b, wf_rep a \/ wf_rep b -> wf_rep (common_rep a b).
Proof.
  intros a b H. unfold wf_rep, common_rep in *.
  destruct (Bool.eqb (rsigned a) (rsigned b)).
  - destruct (Z.ltb_spec (rbits a) (rbits b)); lia.
  - destruct (rsigned a).
    + destruct (Z.leb_spec (rbits a) (rbits b)); lia.
    + destruct (Z.leb_spec (rbits b) (rbits a)); lia.
Qed.

Lemma common_self : forall t, common_rep t t = t.
Proof. intros t. unfold common_rep. rewrite eqb_reflx, Z.ltb_irrefl. reflexivity. Qed.

Lemma common_args_self : forall t a, common_args t t a = a.
Proof.
  intros t a. unfold common_args, conv_raw, conv_int. rewrite common_self, rep_eqb_refl.
  destruct a; reflexivity.
Qed.
Lemma f_arith_self : forall p t op a, f_arith p t t op a = p_arith p t op a.
Proof. intros. unfold f_arith. now rewrite common_self, common_args_self. Qed.
Lemma f_cmp_self : forall p t op a, f_cmp p t t op a = p_cmp p t op a.
Proof. intros. unfold f_cmp. now rewrite common_self, common_args_self. Qed.

(** When the conversions keep the operands. *)
Lemma common_args_id : forall tl tr a, wf_reps tl tr a -> wf_args2 tl tr a ->
  rsigned (common_rep tl tr) = true \/ non_negative_args a ->
  common_args tl tr a = a /\ wf_args (common_rep tl tr) a /\ wf_rep (common_rep tl tr).
Proof.
  intros tl tr a R A C.
  assert (B : 0 < rbits tl /\ 0 < rbits tr /\ (wf_rep tl \/ wf_rep tr)).
  { destruct a; cbn in R; unfold wf_rep in *; lia. }
  destruct B as [B1 [B2 B3]].
  assert (Wc : wf_rep (common_rep tl tr)) by now apply common_wf.
  cut (wf_args (common_rep tl tr) a).
  { intros Wa. split; [|auto]. unfold common_args.
    destruct a; cbn in Wa; destruct Wa; rewrite ?conv_raw_id, ?conv_int_id; auto. }
  destruct C as [C|C].
  - destruct (common_signed_ranges tl tr B1 B2 C) as [R1 R2].
    destruct a; cbn in A |- *; unfold wf_raw in *; repeat split;
      solve [eapply (range_le_in tl); eauto; tauto | eapply (range_le_in tr); eauto; tauto].
  - destruct (common_rmax tl tr B1 B2) as [M1 M2].
    assert (Mn : rmin (common_rep tl tr) <= 0).
    { unfold rmin. destruct (rsigned (common_rep tl tr)); [|lia].
      assert (0 < 2 ^ (rbits (common_rep tl tr) - 1)); [|lia].
      apply Z.pow_pos_nonneg; unfold wf_rep in Wc; lia. }
    destruct a; cbn in A, C |- *; unfold wf_raw in *; rewrite !in_rep_iff in *; lia.
Qed.

(** ** Mixed representations *)

Theorem f_arith_mixed : forall p tl tr op a, wf_reps tl tr a -> wf_args2 tl tr a ->
  rsigned (common_rep tl tr) = true \/ non_negative_args a ->
  f_arith p tl tr op a = p_arith p (common_rep tl tr) op a.
Proof.
  intros p tl tr op a R A C. unfold f_arith.
  now rewrite (proj1 (common_args_id tl tr a R A C)).
Qed.
Theorem f_cmp_mixed : forall p tl tr op a, wf_reps tl tr a -> wf_args2 tl tr a ->
  rsigned (common_rep tl tr) = true \/ non_negative_args a ->
  f_cmp p tl tr op a = p_cmp p (common_rep tl tr) op a.
Proof.
  intros p tl tr op a R A C. unfold f_cmp.
  now rewrite (proj1 (common_args_id tl tr a R A C)).
Qed.

(** ** Results are values of the type *)

Lemma arith_wf : forall o t op a r, wf_rep t -> wf_args t a ->
  p_arith (denote o) t op a = Ok r -> wf_raw t r.
Proof. intros o t op a r W A H. exact (proj1 (denote_wf o) t op a r W A H). Qed.

Lemma negate_wf : forall o t v r, wf_rep t -> wf_raw t v ->
  p_negate (denote o) t v = Ok r -> wf_raw t r.
Proof. intros o t v r W A H. exact (proj2 (denote_wf o) t v r W A H). Qed.

(** ** Compound assignment *)

Definition operand_args (l : raw) (x : operand) : args :=
  match x with FracOperand _ r => RR l r | IntOperand _ z => RI l z end.

Lemma f_assign_fits : forall p t op l x, wf_rep t -> operand_fits t x ->
  f_assign p t op l x = p_arith p t op (operand_args l x).
Proof.
  intros p t op l [s r|s z] W F; cbn in F |- *; rewrite f_arith_self.
  - now rewrite conv_raw_id.
  - now rewrite conv_int_id.
Qed.

Lemma operand_args_wf : forall t l x, wf_raw t l -> operand_fits t x -> wf_args t (operand_args l x).
Proof. intros t l [s r|s z] W F; cbn in *; tauto. Qed.

Lemma exact_opt_same : forall op x x' y, same_value x x' -> same_value (exact_opt op x y) (exact_opt op x' y).
Proof. intros op x x' y H. now rewrite H. Qed.

Lemma assign_value_same : forall xs x x', same_value x x' ->
  same_value (assign_value x xs) (assign_value x' xs).
Proof.
  induction xs as [|[op x0] xs IH]; cbn [assign_value]; intros; auto.
  apply IH. now apply exact_opt_same.
Qed.

Theorem assign_all_exact : forall o t xs l r, wf_rep t -> rsigned t = true -> wf_raw t l ->
  (forall op x, In (op, x) xs -> operand_fits t x /\ (op = Divides -> reduces_inputs o = false -> operand_value x <> None)) ->
  f_assign_all (denote o) t l xs = Ok r ->
  wf_raw t r /\ same_value (value r) (assign_value (value l) xs)
  /\ (output_canonical o = true -> xs <> [] -> canonical r).
Proof.
  induction xs as [|[op x] xs IH]; intros l r W S Wl H E.
  - cbn in E. inversion E; subst. split; auto. split; [reflexivity|congruence].
  - cbn [f_assign_all] in E. inv_bind E.
    destruct (H op x (or_introl eq_refl)) as [F D].
    rewrite f_assign_fits in E0; auto.
    pose proof (operand_args_wf t l x Wl F) as Wa.
    pose proof (arith_wf _ _ _ _ _ W Wa E0) as Wr.
    destruct (IH a r W S Wr) as [I1 [I2 I3]]; auto.
    { intros op' x' I. apply (H op' x'). now right. }
    split; auto. split.
    + cbn [assign_value]. rewrite I2. apply assign_value_same.
      apply (denote_exact_opt o t op (operand_args l x) a) in E0; auto.
      * destruct x; exact E0.
      * destruct (reduces_inputs o); [auto|].
        destruct op; try (left; discriminate). right; right.
        specialize (D eq_refl eq_refl). destruct x; exact D.
    + intros C _. destruct xs as [|y xs].
      * cbn in E. inversion E; subst. eapply denote_canonical; eauto.
      * apply I3; auto. discriminate.
Qed.

(** ** Expressions *)

Lemma eval_wf : forall o t e r, wf_rep t -> wf_expr t e -> eval (denote o) t e = Ok r -> wf_raw t r.
Proof.
  intros o t e. induction e; intros v W We H; cbn [eval wf_expr] in *; inv_all; auto.
  - unfold f_negate in H. eapply negate_wf; eauto.
  - rewrite f_arith_self in H. eapply arith_wf; eauto. destruct We. split; auto.
  - rewrite f_arith_self in H. eapply arith_wf; eauto. destruct We. split; auto.
  - rewrite f_arith_self in H. eapply arith_wf; eauto. destruct We. split; auto.
Qed.

Theorem eval_exact_opt : forall o t e r, wf_rep t -> rsigned t = true -> reduces_inputs o = true ->
  wf_expr t e -> eval (denote o) t e = Ok r -> same_value (value r) (denotes e).
Proof.
  intros o t e. induction e as [r0|e IH|e IH|op l IHl r' IHr|op l IHl z|op z r' IHr];
    intros v W S C We H; cbn [eval wf_expr denotes] in *; inv_all.
  - reflexivity.
  - cbn. auto.
  - unfold f_negate in H. pose proof (eval_wf _ _ _ _ W We E) as Wa.
    apply denote_negate in H; auto. rewrite H. specialize (IH _ W S C We eq_refl).
    destruct (value a), (denotes e); cbn in *; try contradiction; auto. now rewrite IH.
  - rewrite f_arith_self in H. destruct We as [W1 W2].
    pose proof (eval_wf _ _ _ _ W W1 E) as Wa. pose proof (eval_wf _ _ _ _ W W2 E0) as Wb.
    apply (denote_exact_opt o t op (RR a a0) v) in H; auto; [|split; auto].
    rewrite H. cbn [left_value right_value]. rewrite (IHl _ W S C W1 eq_refl), (IHr _ W S C W2 eq_refl). reflexivity.
  - rewrite f_arith_self in H. destruct We as [W1 W2].
    pose proof (eval_wf _ _ _ _ W W1 E) as Wa.
    apply (denote_exact_opt o t op (RI a z) v) in H; auto; [|split; auto].
    rewrite H. cbn [left_value right_value]. rewrite (IHl _ W S C W1 eq_refl). reflexivity.
  - rewrite f_arith_self in H. destruct We as [W1 W2].
    pose proof (eval_wf _ _ _ _ W W2 E) as Wa.
    apply (denote_exact_opt o t op (IR z a) v) in H; auto; [|split; auto].
    rewrite H. cbn [left_value right_value]. rewrite (IHr _ W S C W2 eq_refl). reflexivity.
Qed.

Lemma exact_opt_some : forall op x y q, exact_opt op x y = Some q ->
  exists p r, x = Some p /\ y = Some r /\ exact op p r = Some q.
Proof. intros op [p|] [r|] q H; cbn in H; try discriminate; eauto. Qed.

Lemma same_some_l : forall v q, same_value v (Some q) -> v <> None.
Proof. intros [x|] q H; cbn in H; congruence. Qed.

Theorem eval_exact : forall o t e r q, wf_rep t -> rsigned t = true ->
  wf_expr t e -> denotes e = Some q -> eval (denote o) t e = Ok r -> same_value (value r) (Some q).
Proof.
  intros o t e. induction e as [r0|e IH|e IH|op l IHl r' IHr|op l IHl z|op z r' IHr];
    intros v q W S We D H; cbn [eval wf_expr denotes] in *; inv_all.
  - rewrite D. reflexivity.
  - cbn. eauto.
  - unfold f_negate in H. pose proof (eval_wf _ _ _ _ W We E) as Wa.
    apply denote_negate in H; auto. rewrite H.
    destruct (denotes e) as [q'|]; [|discriminate].
    specialize (IH _ _ W S We eq_refl eq_refl).
    destruct (value a); cbn in *; try contradiction; auto. inversion D; subst. now rewrite IH.
  - rewrite f_arith_self in H. destruct We as [W1 W2].
    pose proof (eval_wf _ _ _ _ W W1 E) as Wa. pose proof (eval_wf _ _ _ _ W W2 E0) as Wb.
    apply exact_opt_some in D as [x [y [D1 [D2 D3]]]].
    specialize (IHl _ _ W S W1 D1 eq_refl). specialize (IHr _ _ W S W2 D2 eq_refl).
    apply (denote_exact_opt o t op (RR a a0) v) in H; auto; [|split; auto|right; right; exact (same_some_l _ _ IHr)].
    rewrite H. cbn [left_value right_value]. rewrite IHl, IHr. cbn [exact_opt]. now rewrite D3.
  - rewrite f_arith_self in H. destruct We as [W1 W2].
    pose proof (eval_wf _ _ _ _ W W1 E) as Wa.
    apply exact_opt_some in D as [x [y [D1 [D2 D3]]]]. inversion D2; subst y.
    specialize (IHl _ _ W S W1 D1 eq_refl).
    apply (denote_exact_opt o t op (RI a z) v) in H; auto; [|split; auto|right; right; cbn; congruence].
    rewrite H. cbn [left_value right_value]. rewrite IHl. cbn [exact_opt]. now rewrite D3.
  - rewrite f_arith_self in H. destruct We as [W1 W2].
    pose proof (eval_wf _ _ _ _ W W2 E) as Wa.
    apply exact_opt_some in D as [x [y [D1 [D2 D3]]]]. inversion D1; subst x.
    specialize (IHr _ _ W S W2 D2 eq_refl).
    apply (denote_exact_opt o t op (IR z a) v) in H; auto; [|split; auto|right; right; exact (same_some_l _ _ IHr)].
    rewrite H. cbn [left_value right_value]. rewrite IHr. cbn [exact_opt]. now rewrite D3.
Qed.

Theorem eval_canonical : forall o t e r, wf_rep t -> output_canonical o = true ->
  wf_expr t e -> is_operation e = true -> eval (denote o) t e = Ok r -> canonical r.
Proof.
  intros o t e. induction e as [r0|e IH|e IH|op l IHl r' IHr|op l IHl z|op z r' IHr];
    intros v W C We O H; cbn [eval wf_expr is_operation] in *; inv_all; try discriminate.
  - cbn. eauto.
  - unfold f_negate in H. eapply denote_negate_canonical; eauto. eapply eval_wf; eauto.
  - rewrite f_arith_self in H. destruct We as [W1 W2]. eapply denote_canonical; [exact W| |exact C|exact H].
    split; [apply (eval_wf o t l)|apply (eval_wf o t r')]; auto.
  - rewrite f_arith_self in H. destruct We as [W1 W2]. eapply denote_canonical; [exact W| |exact C|exact H].
    split; [apply (eval_wf o t l)|]; auto.
  - rewrite f_arith_self in H. destruct We as [W1 W2]. eapply denote_canonical; [exact W| |exact C|exact H].
    split; [|apply (eval_wf o t r')]; auto.
Qed.

(** *** No undefined behaviour while the growth bound fits *)

Lemma grow_ge : forall n B, 1 <= B -> B <= grow n B.
Proof. induction n; intros B H; cbn [grow]; [lia|]. specialize (IHn B H). nia. Qed.
Lemma grow_step : forall n B, 1 <= B -> grow n B <= grow (S n) B.
Proof. intros n B H. pose proof (grow_ge n B H). cbn [grow]. nia. Qed.
Lemma grow_mono : forall n m B, 1 <= B -> (n <= m)%nat -> grow n B <= grow m B.
Proof.
  intros n m B H L. induction L; [lia|]. pose proof (grow_step m B H). lia.
Qed.

Lemma raw_bounded_mono : forall A B r, A <= B -> raw_bounded A r -> raw_bounded B r.
Proof. intros A B r H [H1 H2]. split; lia. Qed.

Lemma negate_bounded : forall o t v B, wf_rep t -> rsigned t = true -> wf_raw t v ->
  raw_bounded B v -> B <= rmax t ->
  exists r, p_negate (denote o) t v = Ok r /\ wf_raw t r /\ raw_bounded B r.
Proof.
  intros o t v B W S Wv Bv HB.
  cut (exists r, p_negate (denote o) t v = Ok r /\ raw_bounded B r).
  { intros [r [H B']]. exists r. split; auto. split; auto. eapply negate_wf; eauto. }
  revert v Wv Bv. induction o as [| |o IH m|o IH m]; intros v Wv [B1 B2]; cbn [denote];
    cbn [p_negate safe fast reduced_input reduced_output].
  1,2: unfold safe_negate, fast_negate, m_neg; rewrite arith_in; auto;
    [eexists; split; [reflexivity|]; split; cbn; lia|apply in_rep_abs; auto; [lia|congruence]].
  - unfold ri_negate. destruct (reduce_total t v normalize_signs_mode W Wv) as [r E]; try lia.
    rewrite E. cbn [bind]. apply reduce_spec in E as [W' [R _]]; auto.
    apply IH; auto. pose proof (reduces_bound _ _ _ R). split; lia.
  - unfold ro_negate. destruct (IH v Wv (conj B1 B2)) as [r [E [B3 B4]]]. rewrite E. cbn [bind].
    pose proof (negate_wf o t v r W Wv E) as Wr.
    destruct (reduce_total t r m W Wr) as [r' E']; try lia. rewrite E'.
    apply reduce_spec in E' as [W' [R _]]; auto.
    exists r'. split; auto. pose proof (reduces_bound _ _ _ R). split; lia.
Qed.

Lemma exact_side : forall t op x y q, rsigned t = true -> exact op x y = Some q ->
  value_side t op (Some x) (Some y).
Proof.
  intros t op x y q S H. cbn. split; [|congruence].
  intros -> Z. cbn in H. apply Qeq_bool_iff in Z. rewrite Z in H. discriminate.
Qed.

Lemma value_side_same : forall t op x x' y y', same_value x x' -> same_value y y' ->
  value_side t op x' y' -> value_side t op x y.
Proof.
  intros t op [x|] [x'|] [y|] [y'|] H1 H2 H; cbn in *; try contradiction.
  destruct H as [H3 H4]. split; intros; [rewrite H2|rewrite H1, H2]; auto.
Qed.

Lemma total_step : forall o t op a B x y q, wf_rep t -> rsigned t = true -> wf_args t a ->
  same_value (left_value a) (Some x) -> same_value (right_value a) (Some y) ->
  args_bounded B a -> 2 * B * B <= rmax t -> exact op x y = Some q ->
  exists r, p_arith (denote o) t op a = Ok r /\ wf_raw t r /\ raw_bounded (2 * B * B) r
    /\ same_value (value r) (Some q).
Proof.
  intros o t op a B x y q W S A L R HA HB E.
  destruct (denote_total o t op a B) as [r [H1 [H2 [H3 H4]]]]; auto.
  - split; [exact (same_some_l _ _ L)|exact (same_some_l _ _ R)].
  - eapply value_side_same; eauto. eapply exact_side; eauto.
  - exists r. repeat split; auto; try apply H2; try apply H3.
    rewrite H4, L, R. cbn [exact_opt]. now rewrite E.
Qed.

Theorem eval_total : forall o t e q B, wf_rep t -> rsigned t = true -> wf_expr t e ->
  denotes e = Some q -> 1 <= B -> expr_bounded B e -> grow (depth e) B <= rmax t ->
  exists r, eval (denote o) t e = Ok r /\ wf_raw t r /\ raw_bounded (grow (depth e) B) r
    /\ same_value (value r) (Some q).
Proof.
  intros o t e. induction e as [r0|e IH|e IH|op l IHl r' IHr|op l IHl z|op z r' IHr];
    intros q B W S We D HB EB G; cbn [eval wf_expr denotes expr_bounded depth] in *.
  - exists r0. rewrite D. repeat split; auto; try apply We; try apply EB; reflexivity.
  - destruct (IH q B) as [v [E1 E2]]; auto. rewrite E1. cbn. eauto.
  - destruct (denotes e) as [q'|]; [|discriminate]. cbn in D. inversion D; subst q.
    destruct (IH q' B) as [v [E1 [E2 [E3 E4]]]]; auto. rewrite E1. cbn [bind]. unfold f_negate.
    destruct (negate_bounded o t v (grow (depth e) B)) as [r [F1 [F2 F3]]]; auto.
    exists r. repeat split; auto; try apply F2; try apply F3.
    apply denote_negate in F1; auto. rewrite F1.
    destruct (value v); cbn in *; [|contradiction]. now rewrite E4.
  - destruct We as [W1 W2], EB as [B1 B2].
    apply exact_opt_some in D as [x [y [D1 [D2 D3]]]].
    set (m := Nat.max (depth l) (depth r')) in *.
    assert (G1 : grow (depth l) B <= grow m B) by (apply grow_mono; auto; lia).
    assert (G2 : grow (depth r') B <= grow m B) by (apply grow_mono; auto; lia).
    pose proof (grow_step m B HB). cbn [grow] in *.
    destruct (IHl x B) as [v [E1 [E2 [E3 E4]]]]; auto; try lia.
    destruct (IHr y B) as [w [F1 [F2 [F3 F4]]]]; auto; try lia.
    rewrite E1, F1. cbn [bind]. rewrite f_arith_self.
    apply (total_step o t op (RR v w) (grow m B) x y q); auto.
    + split; auto.
    + split; [exact (raw_bounded_mono _ _ _ G1 E3)|exact (raw_bounded_mono _ _ _ G2 F3)].
  - destruct We as [W1 W2], EB as [B1 B2].
    apply exact_opt_some in D as [x [y [D1 [D2 D3]]]]. inversion D2; subst y.
    pose proof (grow_step (depth l) B HB). pose proof (grow_ge (depth l) B HB). cbn [grow] in *.
    destruct (IHl x B) as [v [E1 [E2 [E3 E4]]]]; auto; try lia.
    rewrite E1. cbn [bind]. rewrite f_arith_self.
    apply (total_step o t op (RI v z) (grow (depth l) B) x (inject_Z z) q); auto.
    + split; auto.
    + reflexivity.
    + split; auto. lia.
  - destruct We as [W1 W2], EB as [B1 B2].
    apply exact_opt_some in D as [x [y [D1 [D2 D3]]]]. inversion D1; subst x.
    pose proof (grow_step (depth r') B HB). pose proof (grow_ge (depth r') B HB). cbn [grow] in *.
    destruct (IHr y B) as [v [E1 [E2 [E3 E4]]]]; auto; try lia.
    rewrite E1. cbn [bind]. rewrite f_arith_self.
    apply (total_step o t op (IR z v) (grow (depth r') B) (inject_Z z) y q); auto.
    + split; auto.
    + reflexivity.
    + split; auto. lia.
Qed.
