(** Proofs of the statements in Props_Raw.v. *)

From Coq Require Import ZArith QArith Qabs Bool Lia.
From Verif Require Import Machine Raw Ops Spec.
From Verif Require Import Machine_proofs Value_proofs Ops_proofs Total_proofs Cmp_proofs Order_proofs Laws_proofs.
Open Scope Z_scope.

Lemma c19_reduce_value_and_form : forall t v m r,
  wf_rep t -> wf_raw t v -> reduce t v m = Ok r ->
  wf_raw t r /\ same_value (value r) (value v) /\
  (value v = None -> r = mkRaw 0 0) /\
  (value v <> None -> Z.gcd (num r) (den r) = 1 /\
     match m with
     | normalize_signs_mode => 0 < den r
     | ignore_signs_mode => Z.sgn (den r) = Z.sgn (den v) /\ Z.sgn (num r) = Z.sgn (num v)
     end).
Proof.
  intros t v m r W Wv H. apply reduce_spec in H as [Wr [R B]]; auto.
  split; [auto|]. split; [now apply (reduces_same_value m)|].
  destruct R as [[D ->]|[D [g [G [Hn [Hd [Hg [P1 P2]]]]]]]].
  - split; auto. intros N. now rewrite value_none_iff in N.
  - split; [rewrite value_none_iff; tauto|]. intros _. split; auto.
    destruct m; auto. specialize (P2 eq_refl). rewrite Hn, Hd, !Z.sgn_mul. rewrite (Z.sgn_pos g) by lia. lia.
Qed.

Lemma c19_reduce_idempotent : forall t v m r,
  wf_rep t -> wf_raw t v -> reduce t v m = Ok r -> reduce t r m = Ok r.
Proof. exact reduce_idempotent. Qed.

Lemma c19_reduce_decides_equality : forall t a b ra rb,
  wf_rep t -> wf_raw t a -> wf_raw t b ->
  reduce t a normalize_signs_mode = Ok ra -> reduce t b normalize_signs_mode = Ok rb ->
  (same_value (value a) (value b) <-> ra = rb).
Proof. exact reduce_equal_iff. Qed.

Lemma c19_reduce_total : forall t v m,
  wf_rep t -> wf_raw t v -> raw_bounded (rmax t) v -> exists r, reduce t v m = Ok r.
Proof. intros t v m W Wv [B1 B2]. now apply reduce_total. Qed.

Lemma c19_reduce_minimum_refuted : exists v, value v <> None /\ wf_raw int32 v /\
  reduce int32 v normalize_signs_mode = UB LibPrecond /\ reduce int32 v ignore_signs_mode = UB LibPrecond.
Proof. exists (mkRaw (-2147483648) 2). repeat split; vm_compute; congruence. Qed.

Lemma c20_is_reduced_partial : forall t v b r,
  wf_rep t -> wf_raw t v -> 0 < den v ->
  is_reduced t v = Ok b -> reduce t v normalize_signs_mode = Ok r -> (b = true <-> r = v).
Proof. exact is_reduced_reduce. Qed.

Lemma c20_is_reduced_ignore_signs : forall t v b r,
  wf_rep t -> wf_raw t v ->
  is_reduced_ignore_signs t v = Ok b -> reduce t v ignore_signs_mode = Ok r ->
  (b = true <-> value v <> None /\ r = v).
Proof. intros. rewrite value_none_iff. eapply is_reduced_ignore_reduce; eauto. Qed.

Lemma c20_is_reduced_decides : forall t v b,
  is_reduced t v = Ok b ->
  (b = true <-> value v <> None /\ Z.gcd (num v) (den v) = 1 /\ (0 < num v \/ 0 < den v)).
Proof. intros. rewrite value_none_iff. now apply (is_reduced_spec t). Qed.

Lemma c20_is_reduced_refuted : exists v r, wf_raw int32 v /\
  is_reduced int32 v = Ok true /\ reduce int32 v normalize_signs_mode = Ok r /\ r <> v.
Proof. exists (mkRaw 1 (-2)), (mkRaw (-1) 2). repeat split; vm_compute; congruence. Qed.

Lemma c21_normalize_signs : forall t v r,
  wf_rep t -> rsigned t = true -> wf_raw t v -> normalize_signs t v = Ok r ->
  same_value (value r) (value v) /\ 0 <= den r /\
  Z.abs (num r) = Z.abs (num v) /\ Z.abs (den r) = Z.abs (den v).
Proof. intros t v r W S Wv H. now apply (normalize_signs_spec t v r W S Wv) in H. Qed.

Lemma c21_normalize_signs_total : forall t v,
  wf_rep t -> rsigned t = true -> raw_bounded (rmax t) v -> exists r, normalize_signs t v = Ok r.
Proof. intros t v W S [B1 B2]. now apply normalize_signs_ok. Qed.

Lemma c22_sign_queries : forall v,
  (is_positive v = true <-> value_is (fun q => 0 < q)%Q v) /\
  (is_negative v = true <-> value_is (fun q => q < 0)%Q v) /\
  (is_zero v = true <-> value_is (fun q => q == 0)%Q v) /\
  (is_non_negative v = true <-> value_is (fun q => 0 <= q)%Q v) /\
  (is_non_positive v = true <-> value_is (fun q => q <= 0)%Q v) /\
  (is_defined v = true <-> value v <> None) /\
  (is_undefined v = true <-> value v = None).
Proof.
  intros v. repeat split; intros;
  try (now apply is_positive_spec); try (now apply is_negative_spec); try (now apply is_zero_spec);
  try (now apply is_non_negative_spec); try (now apply is_non_positive_spec);
  try (now apply is_defined_spec); try (now apply is_undefined_spec).
Qed.

Lemma c22_exactly_one : forall v,
  (Nat.add (Nat.add (Nat.b2n (is_positive v)) (Nat.b2n (is_zero v)))
           (Nat.add (Nat.b2n (is_negative v)) (Nat.b2n (is_undefined v))) = 1)%nat.
Proof.
  intros [n d]. unfold is_positive, is_zero, is_negative, is_undefined, is_defined. cbn [num den].
  rewrite negb_involutive, !Z.gtb_ltb.
  destruct (Z.eqb_spec d 0), (Z.eqb_spec n 0), (Z.ltb_spec 0 n), (Z.ltb_spec 0 d), (Z.ltb_spec n 0), (Z.ltb_spec d 0);
    try lia; reflexivity.
Qed.

Lemma c23_is_integer : forall t v b, is_integer t v = Ok b ->
  (b = true <-> value_is (fun q => exists k, q == inject_Z k)%Q v).
Proof. exact is_integer_spec. Qed.

Lemma c23_is_unit_fraction : forall t v b, is_unit_fraction t v = Ok b ->
  (b = true <-> value_is (fun q => exists k, k <> 0%Z /\ q == 1 / inject_Z k)%Q v).
Proof. exact is_unit_fraction_spec. Qed.

Lemma c23_is_proper : forall t v b, wf_rep t -> wf_raw t v -> value v <> None -> is_proper t v = Ok b ->
  (b = true <-> value_is (fun q => Qabs q < 1)%Q v).
Proof.
  intros t v b W Wv D H. destruct (rsigned t) eqn:S.
  - eapply is_proper_spec; eauto.
  - eapply is_proper_unsigned_spec; eauto.
Qed.

Lemma c23_is_improper : forall t v b, wf_rep t -> wf_raw t v -> value v <> None -> is_improper t v = Ok b ->
  (b = true <-> value_is (fun q => 1 <= Qabs q)%Q v).
Proof.
  intros t v b W Wv D H. unfold is_improper in H. inv_bind H. inversion H; subst.
  apply c23_is_proper in E; auto. unfold value_is in *. destruct (value v) as [q|]; [|tauto].
  split.
  - intros N. apply Qnot_lt_le. rewrite <- E. destruct a; [discriminate|congruence].
  - intros N. apply Qle_not_lt in N. rewrite <- E in N. now destruct a.
Qed.

Lemma quot_in_rep : forall t a b, wf_rep t -> in_rep t a = true -> in_rep t b = true -> b <> 0 ->
  ~ (a = rmin t /\ b = -1) -> in_rep t (Z.quot a b) = true.
Proof.
  intros t a b W Ha Hb N X.
  assert (Q : Z.abs (Z.quot a b) <= Z.abs a).
  { rewrite <- Z.quot_abs by auto. apply Z.quot_le_upper_bound; [lia|]. nia. }
  unfold in_rep in *. apply andb_true_iff in Ha as [A1 A2]. apply andb_true_iff in Hb as [B1 B2].
  apply Z.leb_le in A1, A2, B1, B2. unfold wf_rep in W.
  apply andb_true_iff. rewrite !Z.leb_le.
  assert (R : rsigned t = true -> rmin t = - rmax t - 1) by (unfold rmin, rmax; intros ->; lia).
  assert (U : rsigned t = false -> rmin t = 0) by (unfold rmin; intros ->; auto).
  destruct (rsigned t).
  - specialize (R eq_refl). destruct (Z.eq_dec a (rmin t)) as [E|E]; [|lia].
    assert (b <> -1) by tauto.
    destruct (Z.eq_dec b 1) as [->|B]; [rewrite Z.quot_1_r; lia|].
    assert (Z.abs (Z.quot a b) < Z.abs a); [|lia].
    rewrite <- Z.quot_abs by auto. apply Z.quot_lt; lia.
  - specialize (U eq_refl). pose proof (Z.quot_pos a b). lia.
Qed.

Lemma c23_is_integer_total : forall t v, wf_rep t -> wf_raw t v ->
  (exists b, is_integer t v = Ok b) <-> ~ (rsigned t = true /\ num v = rmin t /\ den v = -1).
Proof.
  intros t v W [Wn Wd]. unfold is_integer. destruct (is_defined v) eqn:D.
  - apply is_defined_iff in D. unfold m_rem. rewrite (proj2 (Z.eqb_neq _ _) D).
    split.
    + intros [b H] [S [E1 E2]]. rewrite E1, E2 in H. unfold arith in H. rewrite S in H.
      assert (F : in_rep t (Z.quot (rmin t) (-1)) = false).
      { unfold in_rep, rmin, rmax. rewrite S. unfold wf_rep in W.
        replace (-1) with (- (1)) by lia. rewrite Z.quot_opp_r, Z.quot_1_r by lia.
        apply andb_false_iff. right. apply Z.leb_gt. lia. }
      rewrite F in H. discriminate.
    + intros N. unfold arith. destruct (rsigned t) eqn:S; [|cbn [bind]; eauto].
      rewrite quot_in_rep; auto. cbn [bind]; eauto.
  - split; eauto. intros _ [_ [_ E]]. apply not_true_iff_false in D. rewrite is_defined_iff in D. lia.
Qed.

Lemma c24_identical_iff : forall a b,
  (are_identical a b = true <-> a = b) /\ are_different a b = negb (are_identical a b).
Proof. intros. split; [apply are_identical_iff|reflexivity]. Qed.

Lemma c24_identical_equal : forall o t a b e,
  wf_rep t -> rsigned t = true -> wf_raw t a -> value a <> None ->
  are_identical a b = true -> p_cmp (denote o) t Eq (RR a b) = Ok e -> e = true.
Proof.
  intros o t a b e W S Wa D I H. apply are_identical_iff in I. subst b.
  apply denote_cmp in H; [|auto|auto|split; auto|now left]. cbn [left_value right_value] in H.
  destruct (value a) as [q|]; [|tauto]. subst. cbn. apply Qeq_bool_iff. reflexivity.
Qed.

Lemma c24_reduced_equal_identical : forall o t a b ra rb,
  wf_rep t -> rsigned t = true -> wf_raw t a -> wf_raw t b ->
  reduce t a normalize_signs_mode = Ok ra -> reduce t b normalize_signs_mode = Ok rb ->
  p_cmp (denote o) t Eq (RR ra rb) = Ok true -> are_identical ra rb = true.
Proof.
  intros o t a b ra rb W S Wa Wb Ha Hb H. apply are_identical_iff.
  pose proof (reduce_spec _ _ _ _ W Wa Ha) as [Wra [Ra _]].
  pose proof (reduce_spec _ _ _ _ W Wb Hb) as [Wrb [Rb _]].
  apply denote_cmp in H; [|auto|auto|split; auto|now left]. cbn [left_value right_value] in H.
  apply (reduce_equal_iff t a b ra rb); auto.
  rewrite <- (reduces_same_value _ _ _ Ra), <- (reduces_same_value _ _ _ Rb).
  destruct (value ra), (value rb); cbn in *; try discriminate.
  symmetry in H. now apply Qeq_bool_iff in H.
Qed.

Lemma c25_reciprocal_involutive : forall v, reciprocal (reciprocal v) = v.
Proof. exact reciprocal_involutive. Qed.

Lemma c25_reciprocal_inverts : forall v q, value v = Some q ->
  (~ (q == 0)%Q -> exists p, value (reciprocal v) = Some p /\ (p == / q)%Q) /\
  ((q == 0)%Q -> value (reciprocal v) = None).
Proof.
  intros v q H. split.
  - intros N. pose proof (reciprocal_value v q H N) as E.
    destruct (value (reciprocal v)); [eauto|contradiction].
  - intros Z. apply reciprocal_zero. unfold value_is. now rewrite H.
Qed.

