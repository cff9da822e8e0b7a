(** Property theorems: fractions of unsigned integers.

    Each is closed by the lemma of the same name in Unsigned_claims.v. *)

From Coq Require Import ZArith QArith List Bool Lia.
From Verif Require Import Machine Raw Ops Spec Fraction Fraction_spec Mixed_spec Tight_spec Unsigned_spec.
From Verif Require Import Unsigned_proofs.
Import ListNotations.
Open Scope Z_scope.
From Verif Require Import Unsigned_claims.

(** C68: whenever the signed type one bit wider computes an operation without
    undefined behaviour, the unsigned type computes the same parts. *)
Theorem C68_same_as_signed : forall o t s op a r,
  widens t s -> wf_args t a -> no_borrow op a ->
  p_arith (denote o) s op a = Ok r -> p_arith (denote o) t op a = Ok r.
Proof. exact c68_same_as_signed. Qed.
Print Assumptions C68_same_as_signed.

Theorem C68_compares_as_signed : forall o t s op a b,
  widens t s -> wf_args t a ->
  p_cmp (denote o) s op a = Ok b -> p_cmp (denote o) t op a = Ok b.
Proof. exact c68_compares_as_signed. Qed.
Print Assumptions C68_compares_as_signed.

(** C68: the operators are exact if the textbook products fit. *)
Theorem C68_exact : forall o t op a,
  unsigned_rep t -> wf_args t a -> defined_args a -> no_borrow op a ->
  products_fit (rmax t) op (left_raw a) (right_raw a) ->
  exists r, p_arith (denote o) t op a = Ok r /\ wf_raw t r /\
    same_value (value r) (exact_opt op (left_value a) (right_value a)).
Proof. exact c68_exact. Qed.
Print Assumptions C68_exact.

(** C68: comparisons are those of the rationals, under every policy, also of
    undefined fractions. *)
Theorem C68_comparisons : forall o t op a,
  unsigned_rep t -> wf_args t a -> cross_fit (rmax t) (left_raw a) (right_raw a) ->
  p_cmp (denote o) t op a = Ok (exact_cmp_opt op (left_value a) (right_value a)).
Proof. exact c68_comparisons. Qed.
Print Assumptions C68_comparisons.

(** C68: expressions of any depth that never go below zero. *)
Theorem C68_expressions : forall o t e q B,
  unsigned_rep t -> wf_expr t e -> no_borrows e -> denotes e = Some q ->
  1 <= B -> expr_bounded B e -> grow (depth e) B <= rmax t ->
  exists r, eval (denote o) t e = Ok r /\ wf_raw t r /\ same_value (value r) (Some q).
Proof. exact c68_expressions. Qed.
Print Assumptions C68_expressions.

Theorem C68_expressions_as_signed : forall o t s e r,
  widens t s -> reduces_inputs o = true \/ denotes e <> None -> wf_expr t e -> no_borrows e ->
  eval (denote o) s e = Ok r -> eval (denote o) t e = Ok r.
Proof. exact c68_expressions_as_signed. Qed.
Print Assumptions C68_expressions_as_signed.

(** C68: without the two conditions the result is silently wrong: a difference
    below zero and a product beyond the type. *)
Theorem C68_unconditional_refuted : exists l r l' r' x x',
  wf_raw uint32 l /\ wf_raw uint32 r /\ wf_raw uint32 l' /\ wf_raw uint32 r' /\
  p_arith (denote defaults) uint32 Minus (RR l r) = Ok x /\
  ~ same_value (value x) (exact_opt Minus (value l) (value r)) /\
  p_arith (denote defaults) uint32 Multiplies (RR l' r') = Ok x' /\
  ~ same_value (value x') (exact_opt Multiplies (value l') (value r')).
Proof. exact c68_unconditional_refuted. Qed.
Print Assumptions C68_unconditional_refuted.

Example C68_nonvacuous :
  widens uint32 (mkRep true 33) /\ unsigned_rep uint32 /\ unsigned_rep uint64 /\
  wf_args uint32 (RR (mkRaw 3000000000 2) (mkRaw 2 3)) /\
  products_fit (rmax uint32) Divides (mkRaw 1000000000 2) (mkRaw 2 3) /\
  no_borrow Minus (RR (mkRaw 1 2) (mkRaw 1 3)) /\
  products_fit (rmax uint32) Minus (mkRaw 1 2) (mkRaw 1 3) /\
  p_arith (denote defaults) uint32 Minus (RR (mkRaw 1 2) (mkRaw 1 3)) = Ok (mkRaw 1 6) /\
  cross_fit (rmax uint32) (mkRaw 4000000000 1) (mkRaw 7 1) /\
  p_cmp (denote defaults) uint32 Lt (RR (mkRaw 7 1) (mkRaw 4000000000 1)) = Ok true /\
  no_borrows (Bin Minus (Bin Plus (Leaf (mkRaw 1 2)) (Leaf (mkRaw 1 3))) (Leaf (mkRaw 3 4))) /\
  eval (denote defaults) uint32 (Bin Minus (Bin Plus (Leaf (mkRaw 1 2)) (Leaf (mkRaw 1 3))) (Leaf (mkRaw 3 4))) = Ok (mkRaw 1 12).
Proof.
  unfold widens, unsigned_rep, products_fit, cross_fit, no_borrow. cbn [no_borrows num den left_raw right_raw].
  repeat split; try (vm_compute; congruence); try (intros _; eexists; eexists; repeat split; vm_compute; discriminate);
    try discriminate.
Qed.
