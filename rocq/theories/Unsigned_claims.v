(** Proofs of the statements in Props_Unsigned.v. *)

From Coq Require Import ZArith QArith List Bool Lia.
From Verif Require Import Machine Raw Ops Spec Fraction Fraction_spec Mixed_spec Tight_spec Unsigned_spec.
From Verif Require Import Unsigned_proofs.
Import ListNotations.
Open Scope Z_scope.

Lemma c68_same_as_signed : forall o t s op a r,
  widens t s -> wf_args t a -> no_borrow op a ->
  p_arith (denote o) s op a = Ok r -> p_arith (denote o) t op a = Ok r.
Proof. intros o t s op a r H W N E. now apply (unsigned_arith o t s op a r H W N E). Qed.

Lemma c68_compares_as_signed : forall o t s op a b,
  widens t s -> wf_args t a ->
  p_cmp (denote o) s op a = Ok b -> p_cmp (denote o) t op a = Ok b.
Proof. exact unsigned_cmp. Qed.

Lemma c68_exact : forall o t op a,
  unsigned_rep t -> wf_args t a -> defined_args a -> no_borrow op a ->
  products_fit (rmax t) op (left_raw a) (right_raw a) ->
  exists r, p_arith (denote o) t op a = Ok r /\ wf_raw t r /\
    same_value (value r) (exact_opt op (left_value a) (right_value a)).
Proof. exact unsigned_exact. Qed.

Lemma c68_comparisons : forall o t op a,
  unsigned_rep t -> wf_args t a -> cross_fit (rmax t) (left_raw a) (right_raw a) ->
  p_cmp (denote o) t op a = Ok (exact_cmp_opt op (left_value a) (right_value a)).
Proof. exact unsigned_cmp_exact. Qed.

Lemma c68_expressions : forall o t e q B,
  unsigned_rep t -> wf_expr t e -> no_borrows e -> denotes e = Some q ->
  1 <= B -> expr_bounded B e -> grow (depth e) B <= rmax t ->
  exists r, eval (denote o) t e = Ok r /\ wf_raw t r /\ same_value (value r) (Some q).
Proof. exact unsigned_eval_exact. Qed.

Lemma c68_expressions_as_signed : forall o t s e r,
  widens t s -> reduces_inputs o = true \/ denotes e <> None -> wf_expr t e -> no_borrows e ->
  eval (denote o) s e = Ok r -> eval (denote o) t e = Ok r.
Proof. intros o t s e r H C W N E. now apply (unsigned_eval o t s e r H C W N E). Qed.

Lemma c68_unconditional_refuted : exists l r l' r' x x',
  wf_raw uint32 l /\ wf_raw uint32 r /\ wf_raw uint32 l' /\ wf_raw uint32 r' /\
  p_arith (denote defaults) uint32 Minus (RR l r) = Ok x /\
  ~ same_value (value x) (exact_opt Minus (value l) (value r)) /\
  p_arith (denote defaults) uint32 Multiplies (RR l' r') = Ok x' /\
  ~ same_value (value x') (exact_opt Multiplies (value l') (value r')).
Proof.
  exists (mkRaw 1 3), (mkRaw 1 2), (mkRaw 65536 1), (mkRaw 65537 1), (mkRaw 1431655765 2), (mkRaw 65536 1).
  repeat split; try (vm_compute; reflexivity); vm_compute; discriminate.
Qed.

