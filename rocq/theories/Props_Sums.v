(** Property theorems: reductions over ranges, and comparing computed results.

    Each is closed by the lemma of the same name in Sums_claims.v. *)

From Coq Require Import ZArith QArith List Bool Lia Lqa Permutation.
From Verif Require Import Machine Raw Ops Spec Fraction Fraction_spec Mixed_spec Tight_spec Sums Sums_spec.
From Verif Require Import Value_proofs Fraction_proofs Sums_proofs.
Import ListNotations.
Open Scope Z_scope.
From Verif Require Import Sums_claims.

(** C69: sums and products do not depend on bracketing or order, bit for bit. *)
Theorem C69_any_bracketing : forall o t op e e' r r',
  signed_rep t -> output_canonical o = true -> op = Plus \/ op = Multiplies ->
  only_op op e -> only_op op e' -> wf_expr t e -> wf_expr t e' ->
  Permutation (leaves e) (leaves e') ->
  eval (denote o) t e = Ok r -> eval (denote o) t e' = Ok r' -> r = r'.
Proof. exact c69_any_bracketing. Qed.
Print Assumptions C69_any_bracketing.

(** C69: std::accumulate over a permuted range. *)
Theorem C69_accumulate : forall o t op a xs a' xs' r r',
  signed_rep t -> output_canonical o = true -> op = Plus \/ op = Multiplies ->
  Forall (wf_raw t) (a :: xs) -> Forall (wf_raw t) (a' :: xs') ->
  Permutation (a :: xs) (a' :: xs') ->
  accumulate (denote o) t op a xs = Ok r -> accumulate (denote o) t op a' xs' = Ok r' -> r = r'.
Proof. exact c69_accumulate. Qed.
Print Assumptions C69_accumulate.

(** C69: more generally, two computations with the same rational result give
    the identical fraction. *)
Theorem C69_same_rational : forall o t e e' r r',
  signed_rep t -> output_canonical o = true -> reduces_inputs o = true ->
  wf_expr t e -> wf_expr t e' -> is_operation e = true -> is_operation e' = true ->
  same_value (denotes e) (denotes e') ->
  eval (denote o) t e = Ok r -> eval (denote o) t e' = Ok r' -> r = r'.
Proof. exact c69_same_rational. Qed.
Print Assumptions C69_same_rational.

(** C69 needs a policy that reduces its results: reduced_input<safe> gives 4/3
    or 8/6. *)
Theorem C69_unreduced_refuted : exists a b c r r',
  accumulate (denote (ReducedInput Safe ignore_signs_mode)) int32 Plus a [b; c] = Ok r /\
  accumulate (denote (ReducedInput Safe ignore_signs_mode)) int32 Plus a [c; b] = Ok r' /\ r <> r'.
Proof. exact c69_unreduced_refuted. Qed.
Print Assumptions C69_unreduced_refuted.

Example C69_nonvacuous :
  let e := Bin Plus (Leaf (mkRaw 1 2)) (Bin Plus (Leaf (mkRaw 1 3)) (Leaf (mkRaw 2 (-4)))) in
  let e' := Bin Plus (Bin Plus (Leaf (mkRaw 2 (-4))) (Leaf (mkRaw 1 2))) (Leaf (mkRaw 1 3)) in
  only_op Plus e /\ only_op Plus e' /\ Permutation (leaves e) (leaves e') /\
  eval (denote defaults) int32 e = Ok (mkRaw 1 3) /\ eval (denote defaults) int32 e' = Ok (mkRaw 1 3) /\
  accumulate (denote defaults) int32 Plus (mkRaw 1 2) [mkRaw 1 3; mkRaw 2 (-4)] = Ok (mkRaw 1 3) /\
  accumulate (denote defaults) int32 Multiplies (mkRaw 1 2) [mkRaw 1 3; mkRaw 2 (-4)] = Ok (mkRaw (-1) 12).
Proof.
  cbn [only_op leaves app]. repeat split; try (vm_compute; reflexivity). symmetry. apply (Permutation_middle [mkRaw 1 2; mkRaw 1 3] [] (mkRaw 2 (-4))).
Qed.

(** C70: sums and differences of fractions that are n/D and m/D. *)
Theorem C70_sum : forall o t D n m a,
  built_on_safe o = true -> signed_rep t -> 0 < D <= rmax t ->
  over D n (left_raw a) -> over D m (right_raw a) ->
  Z.abs n <= rmax t -> Z.abs m <= rmax t -> Z.abs (n + m) <= rmax t ->
  exists r, p_arith (denote o) t Plus a = Ok r /\ over D (n + m) r.
Proof. exact c70_sum. Qed.
Print Assumptions C70_sum.

Theorem C70_difference : forall o t D n m a,
  built_on_safe o = true -> signed_rep t -> 0 < D <= rmax t ->
  over D n (left_raw a) -> over D m (right_raw a) ->
  Z.abs n <= rmax t -> Z.abs m <= rmax t -> Z.abs (n - m) <= rmax t ->
  exists r, p_arith (denote o) t Minus a = Ok r /\ over D (n - m) r.
Proof. exact c70_difference. Qed.
Print Assumptions C70_difference.

(** C70: ranges of any length. *)
Theorem C70_accumulate : forall o t D ns xs n a,
  built_on_safe o = true -> signed_rep t -> 0 < D <= rmax t ->
  over D n a -> Forall2 (over D) ns xs -> partial_sums_fit (rmax t) n ns ->
  exists r, accumulate (denote o) t Plus a xs = Ok r /\ over D (n + zsum ns) r /\
    same_value (value r) (Some (inject_Z (n + zsum ns) / inject_Z D)%Q).
Proof. exact c70_accumulate. Qed.
Print Assumptions C70_accumulate.

(** C70: comparisons, of any signs of denominators. *)
Theorem C70_comparisons : forall o t D op n m l r,
  built_on_safe o = true -> signed_rep t -> 0 < D <= rmax t ->
  over D n l -> over D m r -> Z.abs n <= rmax t -> Z.abs m <= rmax t ->
  p_cmp (denote o) t op (RR l r) = Ok (exact_cmp_opt op (value l) (value r)).
Proof. exact c70_comparisons. Qed.
Print Assumptions C70_comparisons.

(** C70 is special to safe: fast overflows on two fractions over 2^20. *)
Theorem C70_fast_refuted : exists D n m l r,
  0 < D <= rmax int32 /\ over D n l /\ over D m r /\
  Z.abs n <= rmax int32 /\ Z.abs m <= rmax int32 /\ Z.abs (n + m) <= rmax int32 /\
  p_arith fast int32 Plus (RR l r) = UB Overflow /\ p_cmp fast int32 Lt (RR l r) = UB Overflow.
Proof. exact c70_fast_refuted. Qed.
Print Assumptions C70_fast_refuted.

Example C70_nonvacuous :
  over 1000000 (-500) (mkRaw 1 (-2000)) /\ over 1000000 3000000 (mkRaw 3 1) /\
  partial_sums_fit (rmax int32) (-500) [3000000; 1] /\
  accumulate (denote defaults) int32 Plus (mkRaw 1 (-2000)) [mkRaw 3 1; mkRaw 1 1000000] = Ok (mkRaw 2999501 1000000).
Proof.
  repeat split; cbn; try discriminate; try lia; [exists (-500)|exists 1000000]; split; reflexivity.
Qed.

(** C71: comparing two computed results compares the rationals they stand for. *)
Theorem C71_compare : forall o t op e e' x y b,
  signed_rep t -> output_canonical o = true -> reduces_inputs o = true ->
  wf_expr t e -> wf_expr t e' -> is_operation e = true -> is_operation e' = true ->
  eval (denote o) t e = Ok x -> eval (denote o) t e' = Ok y ->
  p_cmp (denote o) t op (RR x y) = Ok b -> b = exact_cmp_opt op (denotes e) (denotes e').
Proof. exact c71_compare. Qed.
Print Assumptions C71_compare.

(** C71: the laws of an ordered field, through the operators. *)
Theorem C71_add_keeps_order : forall o t a b c p q s x y v,
  signed_rep t -> output_canonical o = true -> reduces_inputs o = true ->
  wf_raw t a -> wf_raw t b -> wf_raw t c ->
  value a = Some p -> value b = Some q -> value c = Some s -> (p < q)%Q ->
  p_arith (denote o) t Plus (RR a c) = Ok x -> p_arith (denote o) t Plus (RR b c) = Ok y ->
  p_cmp (denote o) t Lt (RR x y) = Ok v -> v = true.
Proof. exact c71_add_keeps_order. Qed.
Print Assumptions C71_add_keeps_order.

Theorem C71_multiply_keeps_order : forall o t a b c p q s x y v,
  signed_rep t -> output_canonical o = true -> reduces_inputs o = true ->
  wf_raw t a -> wf_raw t b -> wf_raw t c ->
  value a = Some p -> value b = Some q -> value c = Some s -> (p < q)%Q -> (0 < s)%Q ->
  p_arith (denote o) t Multiplies (RR a c) = Ok x -> p_arith (denote o) t Multiplies (RR b c) = Ok y ->
  p_cmp (denote o) t Lt (RR x y) = Ok v -> v = true.
Proof. exact c71_multiply_keeps_order. Qed.
Print Assumptions C71_multiply_keeps_order.

Theorem C71_negate_reverses_order : forall o t a b p q x y v,
  signed_rep t -> output_canonical o = true -> reduces_inputs o = true ->
  wf_raw t a -> wf_raw t b -> value a = Some p -> value b = Some q -> (p < q)%Q ->
  p_negate (denote o) t a = Ok x -> p_negate (denote o) t b = Ok y ->
  p_cmp (denote o) t Lt (RR y x) = Ok v -> v = true.
Proof. exact c71_negate_reverses_order. Qed.
Print Assumptions C71_negate_reverses_order.

Theorem C71_halfway_between : forall o t a b p q x y l r v w,
  signed_rep t -> output_canonical o = true -> reduces_inputs o = true ->
  wf_raw t a -> wf_raw t b -> value a = Some p -> value b = Some q -> (p < q)%Q ->
  p_arith (denote o) t Plus (RR a b) = Ok x -> p_arith (denote o) t Divides (RI x 2) = Ok y ->
  p_arith (denote o) t Plus (RI a 0) = Ok l -> p_arith (denote o) t Plus (RI b 0) = Ok r ->
  p_cmp (denote o) t Lt (RR l y) = Ok v -> p_cmp (denote o) t Lt (RR y r) = Ok w -> v = true /\ w = true.
Proof. exact c71_halfway_between. Qed.
Print Assumptions C71_halfway_between.

Example C71_nonvacuous :
  p_arith (denote defaults) int32 Plus (RR (mkRaw 1 (-2)) (mkRaw 1 3)) = Ok (mkRaw (-1) 6) /\
  p_arith (denote defaults) int32 Plus (RR (mkRaw 1 3) (mkRaw 1 3)) = Ok (mkRaw 2 3) /\
  p_cmp (denote defaults) int32 Lt (RR (mkRaw (-1) 6) (mkRaw 2 3)) = Ok true /\
  p_negate (denote defaults) int32 (mkRaw 1 (-2)) = Ok (mkRaw 1 2) /\
  p_arith (denote defaults) int32 Divides (RI (mkRaw (-1) 6) 2) = Ok (mkRaw (-1) 12).
Proof. repeat split; vm_compute; reflexivity. Qed.
