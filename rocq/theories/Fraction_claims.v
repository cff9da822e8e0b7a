(** Proofs of the statements in Props_Fraction.v. *)

From Coq Require Import ZArith QArith Qabs Bool Lia List.
From Verif Require Import Machine Raw Ops Spec Fraction Fraction_spec.
From Verif Require Import Machine_proofs Value_proofs Ops_proofs Total_proofs Cmp_proofs Order_proofs Algebra_proofs Laws_proofs Fraction_proofs.
Import ListNotations.
Open Scope Z_scope.

Lemma c51_computes_in_common_type : forall p tl tr op a,
  wf_reps tl tr a -> wf_args2 tl tr a ->
  rsigned (common_rep tl tr) = true \/ non_negative_args a ->
  f_arith p tl tr op a = p_arith p (common_rep tl tr) op a.
Proof. exact f_arith_mixed. Qed.

Lemma c51_compares_in_common_type : forall p tl tr op a,
  wf_reps tl tr a -> wf_args2 tl tr a ->
  rsigned (common_rep tl tr) = true \/ non_negative_args a ->
  f_cmp p tl tr op a = p_cmp p (common_rep tl tr) op a.
Proof. exact f_cmp_mixed. Qed.

Lemma c51_mixed_exact : forall o tl tr op a r x y,
  wf_reps tl tr a -> wf_args2 tl tr a -> rsigned (common_rep tl tr) = true ->
  left_value a = Some x -> right_value a = Some y ->
  f_arith (denote o) tl tr op a = Ok r ->
  same_value (value r) (exact op x y).
Proof.
  intros o tl tr op a r x y R A C L V H.
  destruct (common_args_id tl tr a R A (or_introl C)) as [E1 [E2 E3]].
  rewrite f_arith_mixed in H; auto.
  pose proof (denote_exact o _ op a r E3 C E2) as E. rewrite L, V in E.
  apply E; auto. split; congruence.
Qed.

Lemma c51_mixed_equality_exact : forall o tl tr a b,
  wf_reps tl tr a -> wf_args2 tl tr a -> rsigned (common_rep tl tr) = true ->
  f_cmp (denote o) tl tr Eq a = Ok b ->
  (b = true <-> exists x y, left_value a = Some x /\ right_value a = Some y /\ (x == y)%Q).
Proof.
  intros o tl tr a b R A C H.
  destruct (common_args_id tl tr a R A (or_introl C)) as [E1 [E2 E3]].
  rewrite f_cmp_mixed in H; auto.
  apply denote_cmp in H; auto; [|now left]. subst.
  destruct (left_value a) as [x|], (right_value a) as [y|]; cbn [exact_cmp_opt exact_cmp];
    try (split; [discriminate|intros [? [? [? [? ?]]]]; congruence]).
  rewrite Qeq_bool_iff. split; [intros; exists x, y; auto|intros [x' [y' [F1 [F2 F3]]]]; congruence].
Qed.

Lemma c51_unsigned_refuted : exists l r s,
  wf_reps int32 uint32 (RR l r) /\ wf_args2 int32 uint32 (RR l r) /\
  f_cmp (denote defaults) int32 uint32 Lt (RR l r) = Ok false /\
  f_arith (denote defaults) int32 uint32 Multiplies (RR l r) = Ok s /\
  value l = Some ((-1) / 2)%Q /\ value r = Some (1 / 2)%Q /\
  ~ same_value (value s) (Some (-1 # 4)%Q).
Proof.
  exists (mkRaw (-1) 2), (mkRaw 1 2), (mkRaw 4294967295 4).
  repeat split; try (vm_compute; congruence).
Qed.

Lemma c52_assignment_sequence_exact : forall o t xs f r,
  wf_rep t -> rsigned t = true -> wf_raw t f ->
  (forall op x, In (op, x) xs -> operand_fits t x /\ operand_value x <> None) ->
  f_assign_all (denote o) t f xs = Ok r ->
  same_value (value r) (assign_value (value f) xs).
Proof.
  intros o t xs f r W S Wf H E.
  eapply assign_all_exact in E; eauto; [tauto|].
  intros op x I. destruct (H op x I). auto.
Qed.

Lemma c52_assignment_sequence_undefined : forall o t xs f r,
  wf_rep t -> rsigned t = true -> wf_raw t f -> reduces_inputs o = true ->
  (forall op x, In (op, x) xs -> operand_fits t x) ->
  f_assign_all (denote o) t f xs = Ok r ->
  same_value (value r) (assign_value (value f) xs).
Proof.
  intros o t xs f r W S Wf R H E.
  eapply assign_all_exact in E; eauto; [tauto|].
  intros op x I. specialize (H op x I). split; auto. congruence.
Qed.

Lemma c52_assignment_sequence_canonical : forall o t xs f r,
  wf_rep t -> rsigned t = true -> wf_raw t f -> output_canonical o = true -> xs <> [] ->
  (forall op x, In (op, x) xs -> operand_fits t x /\ operand_value x <> None) ->
  f_assign_all (denote o) t f xs = Ok r ->
  canonical r.
Proof.
  intros o t xs f r W S Wf C N H E.
  eapply assign_all_exact in E; eauto; [tauto|].
  intros op x I. destruct (H op x I). auto.
Qed.

Lemma c52_assignment_is_operator : forall p t op f x,
  wf_rep t -> operand_fits t x ->
  f_assign p t op f x =
  match x with
  | FracOperand _ r => f_arith p t t op (RR f r)
  | IntOperand _ z => f_arith p t t op (RI f z)
  end.
Proof.
  intros p t op f x W F. rewrite f_assign_fits by auto.
  destruct x; cbn [operand_args]; now rewrite f_arith_self.
Qed.

Lemma c55_expression_exact : forall o t e r,
  wf_rep t -> rsigned t = true -> reduces_inputs o = true -> wf_expr t e ->
  eval (denote o) t e = Ok r -> same_value (value r) (denotes e).
Proof. exact eval_exact_opt. Qed.

Lemma c55_expression_exact_any_policy : forall o t e r q,
  wf_rep t -> rsigned t = true -> wf_expr t e -> denotes e = Some q ->
  eval (denote o) t e = Ok r -> exists q', value r = Some q' /\ (q' == q)%Q.
Proof.
  intros o t e r q W S We D H. pose proof (eval_exact o t e r q W S We D H) as E.
  destruct (value r); [eauto|contradiction].
Qed.

Lemma c55_expression_canonical : forall o t e r,
  wf_rep t -> output_canonical o = true -> wf_expr t e -> is_operation e = true ->
  eval (denote o) t e = Ok r -> canonical r.
Proof. exact eval_canonical. Qed.

Lemma c55_expression_total : forall o t e q B,
  wf_rep t -> rsigned t = true -> wf_expr t e -> denotes e = Some q ->
  1 <= B -> expr_bounded B e -> grow (depth e) B <= rmax t ->
  exists r q', eval (denote o) t e = Ok r /\ value r = Some q' /\ (q' == q)%Q.
Proof.
  intros o t e q B W S We D HB EB G.
  destruct (eval_total o t e q B W S We D HB EB G) as [r [H1 [H2 [H3 H4]]]].
  exists r. destruct (value r) as [q'|]; [|contradiction]. exists q'. auto.
Qed.

Lemma c58_conversion_lossless_iff : forall s t r,
  wf_rep s -> wf_rep t -> wf_raw s r ->
  (f_convert s t r = r <-> wf_raw t r).
Proof.
  intros s t r Ws Wt Wr. split.
  - intros E. rewrite <- E. now apply conv_raw_wf.
  - intros H. now apply conv_raw_id.
Qed.

Lemma wrap_congruent : forall t v, wf_rep t -> (wrap t v - v) mod 2 ^ rbits t = 0.
Proof.
  intros t v W. unfold wf_rep in W. assert (P : 0 < 2 ^ rbits t) by (apply Z.pow_pos_nonneg; lia).
  unfold wrap. apply Z.mod_divide; [lia|]. destruct (rsigned t).
  - exists (- ((v + 2 ^ (rbits t - 1)) / 2 ^ rbits t)).
    pose proof (Z.div_mod (v + 2 ^ (rbits t - 1)) (2 ^ rbits t)). nia.
  - exists (- (v / 2 ^ rbits t)). pose proof (Z.div_mod v (2 ^ rbits t)). nia.
Qed.

Lemma c58_conversion_modular : forall s t r,
  wf_rep s -> wf_rep t -> wf_raw s r ->
  wf_raw t (f_convert s t r) /\
  (num (f_convert s t r) - num r) mod 2 ^ rbits t = 0 /\
  (den (f_convert s t r) - den r) mod 2 ^ rbits t = 0.
Proof.
  intros s t r Ws Wt Wr. split; [now apply conv_raw_wf|].
  assert (N : 2 ^ rbits t <> 0) by (apply Z.pow_nonzero; unfold wf_rep in Wt; lia).
  unfold f_convert, conv_raw, raw_cast, cast. destruct (rep_eqb s t); cbn [num den].
  - rewrite !Z.sub_diag. split; now apply Z.mod_0_l.
  - split; now apply wrap_congruent.
Qed.

Lemma c58_widening : forall s t r,
  wf_rep s -> wf_rep t -> wf_raw s r ->
  rsigned (common_rep s t) = true -> common_rep s t = t ->
  f_convert s t r = r.
Proof.
  intros s t r Ws Wt Wr S C. apply conv_raw_id; auto.
  destruct (common_signed_ranges s t) as [R _]; auto; try (unfold wf_rep in *; lia).
  rewrite C in R. destruct Wr. split; eapply range_le_in; eauto.
Qed.

Lemma c58_integer_and_default : forall n,
  value (f_of_int n) = Some (inject_Z n / 1)%Q /\ canonical (f_of_int n) /\
  same_value (value f_default) (Some 0%Q) /\ canonical f_default.
Proof.
  intros n. split; [reflexivity|]. split; [|split; [reflexivity|right; split; reflexivity]].
  right. split; [reflexivity|]. apply Z.gcd_1_r.
Qed.

Lemma c58_raw_default : value raw_default = None /\ canonical raw_default /\ is_defined raw_default = false /\
  forall t v m, wf_rep t -> value v = None -> reduce t v m = Ok raw_default.
Proof.
  split; [reflexivity|]. split; [left; split; reflexivity|]. split; [reflexivity|].
  intros t v m W N. apply reduce_undefined; auto. now apply value_none_iff.
Qed.

Lemma c58_ratio : forall t N D r,
  wf_rep t -> D <> 0 -> f_of_ratio t N D = Some r ->
  wf_raw t r /\ canonical r /\ same_value (value r) (Some (inject_Z N / inject_Z D)%Q).
Proof.
  intros t N D r W HD H. unfold f_of_ratio in H.
  destruct (in_rep t (Z.sgn D * N / Z.gcd N D) && in_rep t (Z.abs D / Z.gcd N D)) eqn:E; [|discriminate].
  inversion H; subst; clear H. apply andb_true_iff in E as [E1 E2].
  split; [split; auto|].
  assert (G : 0 < Z.gcd N D).
  { pose proof (Z.gcd_nonneg N D). assert (Z.gcd N D <> 0); [|lia].
    intros E. apply Z.gcd_eq_0_r in E. lia. }
  destruct (Z.gcd_divide_l N D) as [n Hn]. destruct (Z.gcd_divide_r N D) as [d Hd].
  set (g := Z.gcd N D) in *.
  assert (C : Z.gcd n d = 1).
  { assert (X : g = Z.gcd n d * g); [|nia].
    unfold g at 1. rewrite Hn, Hd at 1. rewrite Z.gcd_mul_mono_r. lia. }
  clearbody g. subst N D.
  assert (d <> 0) by nia.
  assert (Sg : Z.sgn (d * g) = Z.sgn d) by (rewrite Z.sgn_mul, (Z.sgn_pos g) by lia; lia).
  rewrite Sg, Z.abs_mul, (Z.abs_eq g) by lia.
  rewrite Z.mul_assoc, !Z.div_mul by lia.
  split.
  - right. cbn [num den]. split; [lia|]. rewrite Z.gcd_abs_r.
    destruct (Z.lt_trichotomy d 0) as [L|[L|L]]; [|lia|].
    + rewrite (Z.sgn_neg d) by lia. replace (-1 * n) with (- n) by lia. now rewrite Z.gcd_opp_l.
    + rewrite (Z.sgn_pos d) by lia. now rewrite Z.mul_1_l.
  - rewrite value_defined by (cbn; lia). cbn [same_value num den].
    apply qdiv_eq; lia.
Qed.

