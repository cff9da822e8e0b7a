(** Proofs of the statements in Props_Wrap.v. *)

From Coq Require Import ZArith QArith List Bool Lia.
From Verif Require Import Machine Raw Ops Spec Unsigned_spec Defined_spec Wrap_spec.
From Verif Require Import Wrap_proofs.
Import ListNotations.
Open Scope Z_scope.

Lemma c101_operators : forall o t op ar a b,
  unsigned_rep t -> wf_args t ar -> reduces_inputs o = true ->
  left_value ar = Some a -> right_value ar = Some b ->
  ((exists r, p_arith (denote o) t op ar = Ok r) <-> wrapped_defined t (built_on_safe o) op a b) /\
  (forall r, p_arith (denote o) t op ar = Ok r ->
     same_value (value r) (value (wrapped_result t (built_on_safe o) op a b))).
Proof. exact wrap_arith. Qed.

Lemma c101_comparisons : forall o t op ar a b,
  unsigned_rep t -> wf_args t ar -> reduces_inputs o = true ->
  left_value ar = Some a -> right_value ar = Some b ->
  let D := shared_den (built_on_safe o) a b in
  ((exists v, p_cmp (denote o) t op ar = Ok v) <-> (built_on_safe o = true -> D <= rmax t)) /\
  (forall v, p_cmp (denote o) t op ar = Ok v ->
     v = int_cmp op (wrapped t (over a D)) (wrapped t (over b D))).
Proof. exact wrap_cmp. Qed.

Lemma c101_sum_exact : forall o t ar a b,
  unsigned_rep t -> wf_args t ar -> reduces_inputs o = true -> built_on_safe o = true ->
  left_value ar = Some a -> right_value ar = Some b ->
  let D := least_den a b in
  ((exists r, p_arith (denote o) t Plus ar = Ok r /\ same_value (value r) (Some (a + b)%Q)) <->
   D <= rmax t /\ 0 <= over a D + over b D <= rmax t).
Proof.
  intros o t ar a b U W I S A B. exact (wrap_sum_exact o t Plus ar a b U W I S A B _ (or_introl (conj eq_refl eq_refl))).
Qed.

Lemma c101_difference_exact : forall o t ar a b,
  unsigned_rep t -> wf_args t ar -> reduces_inputs o = true -> built_on_safe o = true ->
  left_value ar = Some a -> right_value ar = Some b ->
  let D := least_den a b in
  ((exists r, p_arith (denote o) t Minus ar = Ok r /\ same_value (value r) (Some (a - b)%Q)) <->
   D <= rmax t /\ 0 <= over a D - over b D <= rmax t).
Proof.
  intros o t ar a b U W I S A B. exact (wrap_sum_exact o t Minus ar a b U W I S A B _ (or_intror (conj eq_refl eq_refl))).
Qed.

Lemma c101_scale_exact : forall o t l z a,
  unsigned_rep t -> wf_raw t l -> in_rep t z = true -> reduces_inputs o = true ->
  value l = Some a ->
  forall ar, ar = RI l z \/ ar = IR z l ->
  ((exists r, p_arith (denote o) t Multiplies ar = Ok r /\ same_value (value r) (Some (a * inject_Z z)%Q)) <->
   low_num a * z <= rmax t).
Proof. exact wrap_scale_exact. Qed.

Lemma c101_comparisons_exact : forall o t op ar a b,
  unsigned_rep t -> wf_args t ar -> reduces_inputs o = true ->
  left_value ar = Some a -> right_value ar = Some b ->
  let D := shared_den (built_on_safe o) a b in
  (built_on_safe o = true -> D <= rmax t) -> over a D <= rmax t -> over b D <= rmax t ->
  p_cmp (denote o) t op ar = Ok (exact_cmp op a b).
Proof. exact wrap_cmp_exact. Qed.

Lemma c101_equality : forall o t ar a b,
  unsigned_rep t -> wf_args t ar -> reduces_inputs o = true ->
  left_value ar = Some a -> right_value ar = Some b ->
  let D := shared_den (built_on_safe o) a b in
  (forall v, p_cmp (denote o) t Eq ar = Ok v -> (v = true <-> (2 ^ rbits t | over a D - over b D))) /\
  ((a == b)%Q -> exists v, p_cmp (denote o) t Eq ar = Ok v /\ v = true).
Proof. exact wrap_equal. Qed.

Lemma c101_equal_refuted : exists l z a,
  wf_raw uint32 l /\ in_rep uint32 z = true /\ value l = Some a /\ ~ (a == inject_Z z)%Q /\
  p_cmp (denote defaults) uint32 Eq (RI l z) = Ok true.
Proof.
  exists (mkRaw 2 3), 1431655766, (2 # 3)%Q. repeat split; try (vm_compute; reflexivity). vm_compute. discriminate.
Qed.

Lemma c101_order_refuted : exists l r a b,
  wf_raw uint32 l /\ wf_raw uint32 r /\ value l = Some a /\ value r = Some b /\ (b < a)%Q /\
  p_cmp (denote defaults) uint32 Lt (RR l r) = Ok true.
Proof.
  exists (mkRaw 1431655766 1), (mkRaw 4 3), (1431655766 # 1)%Q, (4 # 3)%Q. repeat split; vm_compute; reflexivity.
Qed.

Lemma c101_product_needs_fit_refuted : exists l r a b x,
  wf_raw uint32 l /\ wf_raw uint32 r /\ value l = Some a /\ value r = Some b /\
  rmax uint32 < low_num a * low_num b /\ rmax uint32 < low_den a * low_den b /\
  p_arith (denote defaults) uint32 Multiplies (RR l r) = Ok x /\ same_value (value x) (Some (a * b)%Q).
Proof.
  exists (mkRaw 65536 65537), (mkRaw 65537 65536), (65536 # 65537)%Q, (65537 # 65536)%Q, (mkRaw 1 1).
  repeat split; vm_compute; reflexivity.
Qed.

