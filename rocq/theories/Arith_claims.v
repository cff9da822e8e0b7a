(** Proofs of the statements in Props_Arith.v. *)

From Coq Require Import ZArith QArith Qabs Bool Lia.
From Verif Require Import Machine Raw Ops Spec.
From Verif Require Import Machine_proofs Value_proofs Qtrunc_proofs Ops_proofs Total_proofs Cmp_proofs Order_proofs Algebra_proofs Laws_proofs Mono_proofs.
Open Scope Z_scope.

Lemma exact_form : forall o t op a r x y, wf_rep t -> rsigned t = true -> wf_args t a ->
  left_value a = Some x -> right_value a = Some y ->
  p_arith (denote o) t op a = Ok r ->
  same_value (value r) (exact op x y).
Proof.
  intros o t op a r x y W S A L R H.
  assert (D : defined_args a) by (split; congruence).
  pose proof (denote_exact o t op a r W S A D H) as E. rewrite L, R in E. exact E.
Qed.

Lemma same_some : forall v q, same_value v (Some q) -> exists q', v = Some q' /\ (q' == q)%Q.
Proof. intros [q'|] q H; cbn in H; [eauto|contradiction]. Qed.

Lemma c01_addition_exact : forall o t a r x y,
  wf_rep t -> rsigned t = true -> wf_args t a ->
  left_value a = Some x -> right_value a = Some y ->
  p_arith (denote o) t Plus a = Ok r ->
  exists q, value r = Some q /\ (q == x + y)%Q.
Proof. intros. apply same_some. eapply (exact_form o t Plus); eauto. Qed.

Lemma c02_subtraction_exact : forall o t a r x y,
  wf_rep t -> rsigned t = true -> wf_args t a ->
  left_value a = Some x -> right_value a = Some y ->
  p_arith (denote o) t Minus a = Ok r ->
  exists q, value r = Some q /\ (q == x - y)%Q.
Proof. intros. apply same_some. eapply (exact_form o t Minus); eauto. Qed.

Lemma c03_multiplication_exact : forall o t a r x y,
  wf_rep t -> rsigned t = true -> wf_args t a ->
  left_value a = Some x -> right_value a = Some y ->
  p_arith (denote o) t Multiplies a = Ok r ->
  exists q, value r = Some q /\ (q == x * y)%Q.
Proof. intros. apply same_some. eapply (exact_form o t Multiplies); eauto. Qed.

Lemma c04_division_exact : forall o t a r x y,
  wf_rep t -> rsigned t = true -> wf_args t a ->
  left_value a = Some x -> right_value a = Some y ->
  p_arith (denote o) t Divides a = Ok r ->
  (~ (y == 0)%Q -> exists q, value r = Some q /\ (q == x / y)%Q) /\
  ((y == 0)%Q -> value r = None).
Proof.
  intros o t a r x y W S A L R H.
  pose proof (exact_form o t Divides a r x y W S A L R H) as E. cbn [exact] in E.
  destruct (Qeq_bool y 0) eqn:Z.
  - apply Qeq_bool_iff in Z. split; [contradiction|]. intros _. destruct (value r); auto. contradiction.
  - apply Qeq_bool_neq in Z. split; [|contradiction]. intros _. now apply same_some.
Qed.

Lemma c04_division_by_zero_total : forall t l r,
  wf_rep t -> wf_raw t l -> wf_raw t r ->
  raw_bounded (rmax t) l -> raw_bounded (rmax t) r ->
  value l <> None -> value_is (fun q => q == 0)%Q r ->
  p_arith (denote defaults) t Divides (RR l r) = Ok (mkRaw 0 0).
Proof.
  intros t l r W Wl Wr [Bl1 Bl2] [Br1 Br2] Dl Z.
  rewrite value_is_div in Z. destruct Z as [Dr Z]. rewrite Qdiv_zero_iff in Z by auto.
  rewrite value_none_iff in Dl.
  unfold defaults, safe_reduced_io, safe_reduced_o. cbn [denote].
  rewrite ri_arith_eq. cbn [reduce_args].
  destruct (reduce_total t l ignore_signs_mode W Wl Bl1 Bl2) as [l' El].
  destruct (reduce_total t r ignore_signs_mode W Wr Br1 Br2) as [r' Er].
  rewrite El, Er. cbn [bind]. rewrite ro_arith_eq.
  apply reduce_spec in El as [[Wl1 Wl2] [Rl _]]; auto.
  apply reduce_spec in Er as [[Wr1 Wr2] [Rr _]]; auto.
  assert (E1 : num r' = 0).
  { destruct Rr as [[D _]|[_ [g [G [Hn _]]]]]; [contradiction|]. nia. }
  assert (E2 : den r' = 1 \/ den r' = -1).
  { destruct Rr as [[D _]|[_ [g [G [Hn [Hd [Hg _]]]]]]]; [contradiction|].
    rewrite E1, Z.gcd_0_l in Hg. lia. }
  cbn [p_arith safe p_divides_rr]. unfold safe_divides_rr. rewrite E1.
  rewrite (proj1 (mul_00 t _ W)).
  pose proof (reduces_bound _ _ _ Rl) as [B1 B2].
  pose proof (reduces_bound _ _ _ Rr) as [B3 B4].
  rewrite exec_mul; auto.
  - cbn [bind]. apply reduce_undefined; auto.
  - destruct E2 as [->| ->]; lia.
  - intros U. pose proof (wf_raw_nonneg t l' (conj Wl1 Wl2) U).
    pose proof (wf_raw_nonneg t r' (conj Wr1 Wr2) U). nia.
Qed.

Lemma c05_modulus_exact : forall o t a r x y,
  wf_rep t -> rsigned t = true -> wf_args t a ->
  left_value a = Some x -> right_value a = Some y ->
  p_arith (denote o) t Modulus a = Ok r ->
  ~ (y == 0)%Q /\
  exists q k, value r = Some q /\ (q == x - y * inject_Z k)%Q /\ (Qabs q < Qabs y)%Q /\
    (0 <= x -> 0 <= q)%Q /\ (x <= 0 -> q <= 0)%Q.
Proof.
  intros o t a r x y W S A L R H.
  assert (N : ~ (y == 0)%Q) by (eapply modulus_nonzero; eauto).
  split; auto.
  pose proof (exact_form o t Modulus a r x y W S A L R H) as E. cbn [exact] in E.
  destruct (Qeq_bool y 0) eqn:Z; [apply Qeq_bool_iff in Z; contradiction|].
  apply same_some in E as [q [E1 E2]].
  destruct (truncated_remainder x y N) as [T1 [T2 T3]].
  exists q, (Qtrunc (x / y)). split; [exact E1|]. split; [exact E2|].
  split; [now rewrite (Qabs_wd _ _ E2)|].
  split; intros; rewrite E2; auto.
Qed.

Lemma c06_negation_exact : forall o t v r,
  wf_rep t -> rsigned t = true -> wf_raw t v ->
  p_negate (denote o) t v = Ok r ->
  (forall x, value v = Some x -> exists q, value r = Some q /\ (q == - x)%Q) /\
  (value v = None -> value r = None).
Proof.
  intros o t v r W S Wv H. apply denote_negate in H; auto.
  split; intros; destruct (value v) as [x'|]; cbn [opp_opt] in H; try congruence.
  - inversion H0; subst. now apply same_some.
  - destruct (value r); [contradiction|auto].
Qed.

Lemma c07_total_in_bound : forall o t op a B x y,
  wf_rep t -> wf_args t a ->
  left_value a = Some x -> right_value a = Some y ->
  args_bounded B a -> 2 * B * B <= rmax t ->
  (op = Modulus -> ~ (y == 0)%Q) ->
  (op = Minus -> rsigned t = false -> (y <= x)%Q) ->
  exists r, p_arith (denote o) t op a = Ok r /\ wf_raw t r
    /\ raw_bounded (2 * B * B) r /\ same_value (value r) (exact op x y).
Proof.
  intros o t op a B x y W A L R HA HB H1 H2.
  assert (D : defined_args a) by (split; congruence).
  destruct (denote_total o t op a B W A D HA HB) as [r E].
  - rewrite L, R. split; auto.
  - exists r. rewrite L, R in E. exact E.
Qed.

Lemma c07_negate_total : forall o t v,
  wf_rep t -> rsigned t = true -> wf_raw t v -> raw_bounded (rmax t) v ->
  exists r, p_negate (denote o) t v = Ok r /\ wf_raw t r /\ raw_bounded (rmax t) r.
Proof. exact negate_total. Qed.

Lemma c08_policies_agree : forall o1 o2 t op a r1 r2,
  wf_rep t -> rsigned t = true -> wf_args t a ->
  left_value a <> None -> right_value a <> None ->
  p_arith (denote o1) t op a = Ok r1 -> p_arith (denote o2) t op a = Ok r2 ->
  same_value (value r1) (value r2).
Proof. intros; eapply (policies_agree o1 o2); eauto. split; auto. Qed.

Lemma c09_canonical_results : forall o t op a r,
  wf_rep t -> wf_args t a -> output_canonical o = true ->
  p_arith (denote o) t op a = Ok r -> canonical r.
Proof. exact denote_canonical. Qed.

Lemma c09_canonical_negation : forall o t v r,
  wf_rep t -> wf_raw t v -> output_canonical o = true ->
  p_negate (denote o) t v = Ok r -> canonical r.
Proof. exact denote_negate_canonical. Qed.

Lemma c10_plus_commutes : forall o t a,
  agree (p_arith (denote o) t Plus a) (p_arith (denote o) t Plus (swap a)).
Proof. intros. now apply denote_comm. Qed.

Lemma c10_multiplies_commutes : forall o t a,
  agree (p_arith (denote o) t Multiplies a) (p_arith (denote o) t Multiplies (swap a)).
Proof. intros. now apply denote_comm. Qed.

Lemma c11_plus_assoc : forall o t a b c ab bc x y,
  wf_rep t -> rsigned t = true -> output_canonical o = true ->
  wf_raw t a -> wf_raw t b -> wf_raw t c ->
  p_arith (denote o) t Plus (RR a b) = Ok ab -> p_arith (denote o) t Plus (RR ab c) = Ok x ->
  p_arith (denote o) t Plus (RR b c) = Ok bc -> p_arith (denote o) t Plus (RR a bc) = Ok y ->
  x = y.
Proof. intros o t a b c ab bc x y W S C; intros. eapply (ring_plus_assoc o t W S C a b c); eauto. Qed.

Lemma c11_multiplies_assoc : forall o t a b c ab bc x y,
  wf_rep t -> rsigned t = true -> output_canonical o = true ->
  wf_raw t a -> wf_raw t b -> wf_raw t c ->
  p_arith (denote o) t Multiplies (RR a b) = Ok ab -> p_arith (denote o) t Multiplies (RR ab c) = Ok x ->
  p_arith (denote o) t Multiplies (RR b c) = Ok bc -> p_arith (denote o) t Multiplies (RR a bc) = Ok y ->
  x = y.
Proof. intros o t a b c ab bc x y W S C; intros. eapply (ring_mul_assoc o t W S C a b c); eauto. Qed.

Lemma c11_distributes : forall o t a b c bc x ab ac y,
  wf_rep t -> rsigned t = true -> output_canonical o = true ->
  wf_raw t a -> wf_raw t b -> wf_raw t c ->
  p_arith (denote o) t Plus (RR b c) = Ok bc -> p_arith (denote o) t Multiplies (RR a bc) = Ok x ->
  p_arith (denote o) t Multiplies (RR a b) = Ok ab -> p_arith (denote o) t Multiplies (RR a c) = Ok ac ->
  p_arith (denote o) t Plus (RR ab ac) = Ok y ->
  x = y.
Proof. intros o t a b c bc x ab ac y W S C; intros. eapply (ring_distr o t W S C a b c); eauto. Qed.

Lemma c11_sub_add : forall o t a b d x y,
  wf_rep t -> rsigned t = true -> output_canonical o = true ->
  wf_raw t a -> wf_raw t b -> value b <> None ->
  p_arith (denote o) t Minus (RR a b) = Ok d -> p_arith (denote o) t Plus (RR d b) = Ok x ->
  reduce t a normalize_signs_mode = Ok y ->
  x = y.
Proof. intros o t a b d x y W S C; intros. eapply (ring_sub_add o t W S C a b); eauto. Qed.

Lemma c11_div_mul : forall o t a b d x y,
  wf_rep t -> rsigned t = true -> output_canonical o = true ->
  wf_raw t a -> wf_raw t b -> value b <> None -> ~ same_value (value b) (Some 0%Q) ->
  p_arith (denote o) t Divides (RR a b) = Ok d -> p_arith (denote o) t Multiplies (RR d b) = Ok x ->
  reduce t a normalize_signs_mode = Ok y ->
  x = y.
Proof. intros o t a b d x y W S C; intros. eapply (ring_div_mul o t W S C a b); eauto. Qed.

Lemma c11_add_negation : forall o t a n x,
  wf_rep t -> rsigned t = true -> output_canonical o = true ->
  wf_raw t a -> value a <> None ->
  p_negate (denote o) t a = Ok n -> p_arith (denote o) t Plus (RR a n) = Ok x ->
  x = mkRaw 0 1.
Proof. intros o t a n x W S C; intros. eapply (ring_neg o t W S C a); eauto. Qed.

Lemma c18_undefined_propagates_partial : forall o t op a r,
  wf_rep t -> wf_args t a -> left_value a = None \/ right_value a = None ->
  op <> Divides \/ reduces_inputs o = true \/ right_value a <> None ->
  p_arith (denote o) t op a = Ok r -> value r = None.
Proof.
  intros o t op a r W A D C H. eapply denote_undef; eauto.
  - intros [D1 D2]. tauto.
  - destruct C as [C|[C|C]]; auto. right; right; right.
    destruct a; cbn in *; try discriminate; intros Z; apply C; now apply value_none_iff.
Qed.

Lemma c18_defaults_mul_div : forall t op l r,
  wf_rep t -> wf_raw t l -> wf_raw t r ->
  raw_bounded (rmax t) l -> raw_bounded (rmax t) r ->
  op = Multiplies \/ op = Divides -> value l = None \/ value r = None ->
  p_arith (denote defaults) t op (RR l r) = Ok (mkRaw 0 0).
Proof. exact defaults_mul_div_undef. Qed.

Lemma c18_safe_undefined_traps : forall o t op l r,
  wf_rep t -> wf_raw t l -> wf_raw t r -> built_on_safe o = true ->
  op = Plus \/ op = Minus \/ op = Modulus -> value l = None \/ value r = None ->
  exists u, p_arith (denote o) t op (RR l r) = UB u.
Proof. exact built_on_safe_undef_traps. Qed.

Lemma c18_undefined_propagates_refuted :
  (exists l r, value r = None /\ p_arith (denote defaults) int32 Plus (RR l r) = UB DivByZero) /\
  (exists l r q, value r = None /\
     p_arith (denote Safe) int32 Divides (RR l r) = Ok q /\
     p_arith (denote Fast) int32 Divides (RR l r) = Ok q /\ value q <> None).
Proof.
  split.
  - exists (mkRaw 1 2), (mkRaw 1 0). split; vm_compute; reflexivity.
  - exists (mkRaw 1 2), (mkRaw 3 0), (mkRaw 0 6). repeat split; vm_compute; congruence.
Qed.

Lemma c56_safe_dominates_fast : forall o t op a r,
  wf_rep t -> rsigned t = true -> wf_args t a -> positive_dens a ->
  p_arith (denote o) t op a = Ok r ->
  exists r', p_arith (denote (on_safe o)) t op a = Ok r' /\ scaled r' r.
Proof. exact safe_dominates. Qed.

Lemma c56_safe_strictly_better : exists l r s,
  p_arith fast int32 Plus (RR l r) = UB Overflow /\ p_arith safe int32 Plus (RR l r) = Ok s.
Proof.
  exists (mkRaw 1 65536), (mkRaw 1 65536), (mkRaw 2 65536). split; vm_compute; reflexivity.
Qed.

Lemma c56_dominates_refuted :
  (exists l r s, value l <> None /\ value r <> None /\
     p_arith fast int32 Plus (RR l r) = Ok s /\ p_arith safe int32 Plus (RR l r) = UB Overflow) /\
  (exists l r, 0 < den l /\ 0 < den r /\
     p_cmp fast int32 Lt (RR l r) = Ok false /\
     p_cmp safe int32 Lt (RR l r) = UB LibPrecond /\
     p_cmp (denote defaults) int32 Lt (RR l r) = UB LibPrecond).
Proof.
  split.
  - exists (mkRaw 1073741824 1), (mkRaw 0 (-2)), (mkRaw (-2147483648) (-2)).
    repeat split; vm_compute; congruence.
  - exists (mkRaw 1 65536), (mkRaw 1 65537). repeat split; vm_compute; congruence.
Qed.

Lemma c57_reduced_input_no_new_overflow : forall o m t op a r,
  wf_rep t -> rsigned t = true -> wf_args t a ->
  left_value a <> None -> right_value a <> None -> args_bounded (rmax t) a ->
  m = ignore_signs_mode \/ positive_dens a ->
  p_arith (denote o) t op a = Ok r ->
  exists r', p_arith (denote (ReducedInput o m)) t op a = Ok r' /\ scaled r' r.
Proof. intros; eapply reduced_input_mono; eauto. split; auto. Qed.

Lemma c57_reduced_input_cmp : forall o m t op a v,
  wf_rep t -> rsigned t = true -> wf_args t a ->
  left_value a <> None -> right_value a <> None -> args_bounded (rmax t) a ->
  m = ignore_signs_mode \/ positive_dens a ->
  p_cmp (denote o) t op a = Ok v ->
  p_cmp (denote (ReducedInput o m)) t op a = Ok v.
Proof. intros; eapply reduced_input_cmp_mono; eauto. split; auto. Qed.

Lemma c57_minimum_refuted : exists l r s, value l <> None /\ value r <> None /\
  p_arith safe int32 Plus (RR l r) = Ok s /\
  p_arith (denote safe_reduced_i) int32 Plus (RR l r) = UB LibPrecond.
Proof.
  exists (mkRaw (-2147483648) 1), (mkRaw 1 1), (mkRaw (-2147483647) 1).
  repeat split; vm_compute; congruence.
Qed.

