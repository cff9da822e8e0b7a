(** Proofs of the statements in Props_Sums.v. *)

From Coq Require Import ZArith QArith List Bool Lia Lqa Permutation.
From Verif Require Import Machine Raw Ops Spec Fraction Fraction_spec Mixed_spec Tight_spec Sums Sums_spec.
From Verif Require Import Value_proofs Fraction_proofs Sums_proofs.
Import ListNotations.
Open Scope Z_scope.

Lemma c69_any_bracketing : forall o t op e e' r r',
  signed_rep t -> output_canonical o = true -> op = Plus \/ op = Multiplies ->
  only_op op e -> only_op op e' -> wf_expr t e -> wf_expr t e' ->
  Permutation (leaves e) (leaves e') ->
  eval (denote o) t e = Ok r -> eval (denote o) t e' = Ok r' -> r = r'.
Proof. exact tree_independent. Qed.

Lemma c69_accumulate : forall o t op a xs a' xs' r r',
  signed_rep t -> output_canonical o = true -> op = Plus \/ op = Multiplies ->
  Forall (wf_raw t) (a :: xs) -> Forall (wf_raw t) (a' :: xs') ->
  Permutation (a :: xs) (a' :: xs') ->
  accumulate (denote o) t op a xs = Ok r -> accumulate (denote o) t op a' xs' = Ok r' -> r = r'.
Proof. exact accumulate_independent. Qed.

Lemma c69_same_rational : forall o t e e' r r',
  signed_rep t -> output_canonical o = true -> reduces_inputs o = true ->
  wf_expr t e -> wf_expr t e' -> is_operation e = true -> is_operation e' = true ->
  same_value (denotes e) (denotes e') ->
  eval (denote o) t e = Ok r -> eval (denote o) t e' = Ok r' -> r = r'.
Proof.
  intros o t e e' r r' [W S] C R We We' I I' V E E'. apply canonical_unique.
  - eapply eval_canonical; [exact W|exact C|exact We|exact I|exact E].
  - eapply eval_canonical; [exact W|exact C|exact We'|exact I'|exact E'].
  - now rewrite (eval_exact_opt o t e r W S R We E), (eval_exact_opt o t e' r' W S R We' E').
Qed.

Lemma c69_unreduced_refuted : exists a b c r r',
  accumulate (denote (ReducedInput Safe ignore_signs_mode)) int32 Plus a [b; c] = Ok r /\
  accumulate (denote (ReducedInput Safe ignore_signs_mode)) int32 Plus a [c; b] = Ok r' /\ r <> r'.
Proof.
  exists (mkRaw 1 2), (mkRaw 1 2), (mkRaw 1 3). eexists. eexists.
  split; [vm_compute; reflexivity|]. split; [vm_compute; reflexivity|]. discriminate.
Qed.

Lemma c70_sum : forall o t D n m a,
  built_on_safe o = true -> signed_rep t -> 0 < D <= rmax t ->
  over D n (left_raw a) -> over D m (right_raw a) ->
  Z.abs n <= rmax t -> Z.abs m <= rmax t -> Z.abs (n + m) <= rmax t ->
  exists r, p_arith (denote o) t Plus a = Ok r /\ over D (n + m) r.
Proof. intros o t D n m a C S DD A B Hn Hm Hs. apply (over_arith o t D Plus n m a); auto. Qed.

Lemma c70_difference : forall o t D n m a,
  built_on_safe o = true -> signed_rep t -> 0 < D <= rmax t ->
  over D n (left_raw a) -> over D m (right_raw a) ->
  Z.abs n <= rmax t -> Z.abs m <= rmax t -> Z.abs (n - m) <= rmax t ->
  exists r, p_arith (denote o) t Minus a = Ok r /\ over D (n - m) r.
Proof. intros o t D n m a C S DD A B Hn Hm Hs. apply (over_arith o t D Minus n m a); auto. Qed.

Lemma c70_accumulate : forall o t D ns xs n a,
  built_on_safe o = true -> signed_rep t -> 0 < D <= rmax t ->
  over D n a -> Forall2 (over D) ns xs -> partial_sums_fit (rmax t) n ns ->
  exists r, accumulate (denote o) t Plus a xs = Ok r /\ over D (n + zsum ns) r /\
    same_value (value r) (Some (inject_Z (n + zsum ns) / inject_Z D)%Q).
Proof.
  intros o t D ns xs n a C S DD A F P. destruct (over_accumulate o t D ns xs n a C S DD A F P) as [r [E R]].
  exists r. split; auto. split; auto. apply over_value; auto. apply DD.
Qed.

Lemma c70_comparisons : forall o t D op n m l r,
  built_on_safe o = true -> signed_rep t -> 0 < D <= rmax t ->
  over D n l -> over D m r -> Z.abs n <= rmax t -> Z.abs m <= rmax t ->
  p_cmp (denote o) t op (RR l r) = Ok (exact_cmp_opt op (value l) (value r)).
Proof. exact over_cmp. Qed.

Lemma c70_fast_refuted : exists D n m l r,
  0 < D <= rmax int32 /\ over D n l /\ over D m r /\
  Z.abs n <= rmax int32 /\ Z.abs m <= rmax int32 /\ Z.abs (n + m) <= rmax int32 /\
  p_arith fast int32 Plus (RR l r) = UB Overflow /\ p_cmp fast int32 Lt (RR l r) = UB Overflow.
Proof.
  exists 1048576, 3000, 1, (mkRaw 3000 1048576), (mkRaw 1 1048576).
  split; [split; vm_compute; [reflexivity|discriminate]|].
  split; [split; [discriminate|exists 1; split; reflexivity]|].
  split; [split; [discriminate|exists 1; split; reflexivity]|].
  repeat split; vm_compute; try discriminate; reflexivity.
Qed.

Lemma c71_compare : forall o t op e e' x y b,
  signed_rep t -> output_canonical o = true -> reduces_inputs o = true ->
  wf_expr t e -> wf_expr t e' -> is_operation e = true -> is_operation e' = true ->
  eval (denote o) t e = Ok x -> eval (denote o) t e' = Ok y ->
  p_cmp (denote o) t op (RR x y) = Ok b -> b = exact_cmp_opt op (denotes e) (denotes e').
Proof. exact compare_expressions. Qed.

Lemma lt_of : forall x y, (x < y)%Q -> exact_cmp Lt x y = true.
Proof.
  intros x y H. cbn. apply negb_true_iff, not_true_iff_false. rewrite Qle_bool_iff. lra.
Qed.

Lemma c71_add_keeps_order : forall o t a b c p q s x y v,
  signed_rep t -> output_canonical o = true -> reduces_inputs o = true ->
  wf_raw t a -> wf_raw t b -> wf_raw t c ->
  value a = Some p -> value b = Some q -> value c = Some s -> (p < q)%Q ->
  p_arith (denote o) t Plus (RR a c) = Ok x -> p_arith (denote o) t Plus (RR b c) = Ok y ->
  p_cmp (denote o) t Lt (RR x y) = Ok v -> v = true.
Proof.
  intros o t a b c p q s x y v S C R Wa Wb Wc Va Vb Vc L E E' H.
  rewrite (compare_expressions o t Lt (Bin Plus (Leaf a) (Leaf c)) (Bin Plus (Leaf b) (Leaf c)) x y v S C R);
    cbn [eval bind wf_expr is_operation]; auto; try (rewrite f_arith_self; assumption).
  cbn [denotes]. rewrite Va, Vb, Vc. cbn [exact_opt exact exact_cmp_opt]. apply lt_of. lra.
Qed.

Lemma c71_multiply_keeps_order : forall o t a b c p q s x y v,
  signed_rep t -> output_canonical o = true -> reduces_inputs o = true ->
  wf_raw t a -> wf_raw t b -> wf_raw t c ->
  value a = Some p -> value b = Some q -> value c = Some s -> (p < q)%Q -> (0 < s)%Q ->
  p_arith (denote o) t Multiplies (RR a c) = Ok x -> p_arith (denote o) t Multiplies (RR b c) = Ok y ->
  p_cmp (denote o) t Lt (RR x y) = Ok v -> v = true.
Proof.
  intros o t a b c p q s x y v S C R Wa Wb Wc Va Vb Vc L P E E' H.
  rewrite (compare_expressions o t Lt (Bin Multiplies (Leaf a) (Leaf c)) (Bin Multiplies (Leaf b) (Leaf c)) x y v S C R);
    cbn [eval bind wf_expr is_operation]; auto; try (rewrite f_arith_self; assumption).
  cbn [denotes]. rewrite Va, Vb, Vc. cbn [exact_opt exact exact_cmp_opt]. apply lt_of. apply Qmult_lt_compat_r; auto.
Qed.

Lemma c71_negate_reverses_order : forall o t a b p q x y v,
  signed_rep t -> output_canonical o = true -> reduces_inputs o = true ->
  wf_raw t a -> wf_raw t b -> value a = Some p -> value b = Some q -> (p < q)%Q ->
  p_negate (denote o) t a = Ok x -> p_negate (denote o) t b = Ok y ->
  p_cmp (denote o) t Lt (RR y x) = Ok v -> v = true.
Proof.
  intros o t a b p q x y v S C R Wa Wb Va Vb L E E' H.
  rewrite (compare_expressions o t Lt (Neg (Leaf b)) (Neg (Leaf a)) y x v S C R); cbn [eval bind wf_expr is_operation]; auto.
  cbn [denotes]. rewrite Va, Vb. cbn [opp_opt exact_cmp_opt]. apply lt_of. lra.
Qed.

Lemma c71_halfway_between : forall o t a b p q x y l r v w,
  signed_rep t -> output_canonical o = true -> reduces_inputs o = true ->
  wf_raw t a -> wf_raw t b -> value a = Some p -> value b = Some q -> (p < q)%Q ->
  p_arith (denote o) t Plus (RR a b) = Ok x -> p_arith (denote o) t Divides (RI x 2) = Ok y ->
  p_arith (denote o) t Plus (RI a 0) = Ok l -> p_arith (denote o) t Plus (RI b 0) = Ok r ->
  p_cmp (denote o) t Lt (RR l y) = Ok v -> p_cmp (denote o) t Lt (RR y r) = Ok w -> v = true /\ w = true.
Proof.
  intros o t a b p q x y l r v w S C R Wa Wb Va Vb L E1 E2 E3 E4 H1 H2.
  assert (I2 : in_rep t 2 = true) by (apply Tight_proofs.abs_fits; auto; pose proof (Machine_proofs.rmax_big t (proj1 S)); lia).
  assert (I0 : in_rep t 0 = true) by (apply Tight_proofs.abs_fits; auto; pose proof (Machine_proofs.rmax_big t (proj1 S)); lia).
  assert (EY : eval (denote o) t (BinInt Divides (Bin Plus (Leaf a) (Leaf b)) 2) = Ok y).
  { cbn [eval bind]. rewrite f_arith_self, E1. cbn [bind]. now rewrite f_arith_self. }
  split.
  - rewrite (compare_expressions o t Lt (BinInt Plus (Leaf a) 0) (BinInt Divides (Bin Plus (Leaf a) (Leaf b)) 2) l y v S C R);
      cbn [wf_expr is_operation]; auto; [|cbn [eval bind]; now rewrite f_arith_self].
    cbn [denotes]. rewrite Va, Vb. cbn [exact_opt exact].
    change (Qeq_bool (inject_Z 2) 0) with false. cbn [exact_cmp_opt]. apply lt_of. unfold Qdiv.
    change (/ inject_Z 2)%Q with (1 # 2)%Q. change (inject_Z 0) with 0%Q. lra.
  - rewrite (compare_expressions o t Lt (BinInt Divides (Bin Plus (Leaf a) (Leaf b)) 2) (BinInt Plus (Leaf b) 0) y r w S C R);
      cbn [wf_expr is_operation]; auto; [|cbn [eval bind]; now rewrite f_arith_self].
    cbn [denotes]. rewrite Va, Vb. cbn [exact_opt exact].
    change (Qeq_bool (inject_Z 2) 0) with false. cbn [exact_cmp_opt]. apply lt_of. unfold Qdiv.
    change (/ inject_Z 2)%Q with (1 # 2)%Q. change (inject_Z 0) with 0%Q. lra.
Qed.

