(** Property theorems: fractions of unsigned integers when they wrap around.

    Each is closed by the lemma of the same name in Wrap_claims.v. *)

From Coq Require Import ZArith QArith List Bool Lia.
From Verif Require Import Machine Raw Ops Spec Unsigned_spec Defined_spec Wrap_spec.
From Verif Require Import Wrap_proofs.
Import ListNotations.
Open Scope Z_scope.
From Verif Require Import Wrap_claims.

(** C101: an operator on fractions of unsigned integers has a result exactly if the least
    common denominator fits and it does not take a remainder by zero, and the result is
    the textbook numerator and denominator modulo 2^bits. *)
Theorem C101_operators : forall o t op ar a b,
  unsigned_rep t -> wf_args t ar -> reduces_inputs o = true ->
  left_value ar = Some a -> right_value ar = Some b ->
  ((exists r, p_arith (denote o) t op ar = Ok r) <-> wrapped_defined t (built_on_safe o) op a b) /\
  (forall r, p_arith (denote o) t op ar = Ok r ->
     same_value (value r) (value (wrapped_result t (built_on_safe o) op a b))).
Proof. exact c101_operators. Qed.
Print Assumptions C101_operators.

(** C101: comparisons compare the numerators over the common denominator modulo 2^bits. *)
Theorem C101_comparisons : forall o t op ar a b,
  unsigned_rep t -> wf_args t ar -> reduces_inputs o = true ->
  left_value ar = Some a -> right_value ar = Some b ->
  let D := shared_den (built_on_safe o) a b in
  ((exists v, p_cmp (denote o) t op ar = Ok v) <-> (built_on_safe o = true -> D <= rmax t)) /\
  (forall v, p_cmp (denote o) t op ar = Ok v ->
     v = int_cmp op (wrapped t (over a D)) (wrapped t (over b D))).
Proof. exact c101_comparisons. Qed.
Print Assumptions C101_comparisons.

(** C101: a sum is exact if and only if it fits over the least common denominator. *)
Theorem C101_sum_exact : forall o t ar a b,
  unsigned_rep t -> wf_args t ar -> reduces_inputs o = true -> built_on_safe o = true ->
  left_value ar = Some a -> right_value ar = Some b ->
  let D := least_den a b in
  ((exists r, p_arith (denote o) t Plus ar = Ok r /\ same_value (value r) (Some (a + b)%Q)) <->
   D <= rmax t /\ 0 <= over a D + over b D <= rmax t).
Proof. exact c101_sum_exact. Qed.
Print Assumptions C101_sum_exact.

(** C101: a difference is exact if and only if it fits, even if the operands brought to
    the common denominator do not. *)
Theorem C101_difference_exact : forall o t ar a b,
  unsigned_rep t -> wf_args t ar -> reduces_inputs o = true -> built_on_safe o = true ->
  left_value ar = Some a -> right_value ar = Some b ->
  let D := least_den a b in
  ((exists r, p_arith (denote o) t Minus ar = Ok r /\ same_value (value r) (Some (a - b)%Q)) <->
   D <= rmax t /\ 0 <= over a D - over b D <= rmax t).
Proof. exact c101_difference_exact. Qed.
Print Assumptions C101_difference_exact.

(** C101: multiplication by an integer is exact if and only if the numerator fits. *)
Theorem C101_scale_exact : forall o t l z a,
  unsigned_rep t -> wf_raw t l -> in_rep t z = true -> reduces_inputs o = true ->
  value l = Some a ->
  forall ar, ar = RI l z \/ ar = IR z l ->
  ((exists r, p_arith (denote o) t Multiplies ar = Ok r /\ same_value (value r) (Some (a * inject_Z z)%Q)) <->
   low_num a * z <= rmax t).
Proof. exact c101_scale_exact. Qed.
Print Assumptions C101_scale_exact.

(** C101: comparisons are exact if both numerators over the common denominator fit. *)
Theorem C101_comparisons_exact : forall o t op ar a b,
  unsigned_rep t -> wf_args t ar -> reduces_inputs o = true ->
  left_value ar = Some a -> right_value ar = Some b ->
  let D := shared_den (built_on_safe o) a b in
  (built_on_safe o = true -> D <= rmax t) -> over a D <= rmax t -> over b D <= rmax t ->
  p_cmp (denote o) t op ar = Ok (exact_cmp op a b).
Proof. exact c101_comparisons_exact. Qed.
Print Assumptions C101_comparisons_exact.

(** C101: equal fractions always compare equal, and two fractions compare equal exactly
    if their numerators over the common denominator differ by a multiple of 2^bits. *)
Theorem C101_equality : forall o t ar a b,
  unsigned_rep t -> wf_args t ar -> reduces_inputs o = true ->
  left_value ar = Some a -> right_value ar = Some b ->
  let D := shared_den (built_on_safe o) a b in
  (forall v, p_cmp (denote o) t Eq ar = Ok v -> (v = true <-> (2 ^ rbits t | over a D - over b D))) /\
  ((a == b)%Q -> exists v, p_cmp (denote o) t Eq ar = Ok v /\ v = true).
Proof. exact c101_equality. Qed.
Print Assumptions C101_equality.

(** C101: so different fractions can compare equal: 2/3 equals 1431655766. *)
Theorem C101_equal_refuted : exists l z a,
  wf_raw uint32 l /\ in_rep uint32 z = true /\ value l = Some a /\ ~ (a == inject_Z z)%Q /\
  p_cmp (denote defaults) uint32 Eq (RI l z) = Ok true.
Proof. exact c101_equal_refuted. Qed.
Print Assumptions C101_equal_refuted.

(** C101: and large ones less than small ones: 1431655766 is less than 4/3. *)
Theorem C101_order_refuted : exists l r a b,
  wf_raw uint32 l /\ wf_raw uint32 r /\ value l = Some a /\ value r = Some b /\ (b < a)%Q /\
  p_cmp (denote defaults) uint32 Lt (RR l r) = Ok true.
Proof. exact c101_order_refuted. Qed.
Print Assumptions C101_order_refuted.

(** C101: a product of two fractions can be exact although neither its numerator nor its
    denominator fits. *)
Theorem C101_product_needs_fit_refuted : exists l r a b x,
  wf_raw uint32 l /\ wf_raw uint32 r /\ value l = Some a /\ value r = Some b /\
  rmax uint32 < low_num a * low_num b /\ rmax uint32 < low_den a * low_den b /\
  p_arith (denote defaults) uint32 Multiplies (RR l r) = Ok x /\ same_value (value x) (Some (a * b)%Q).
Proof. exact c101_product_needs_fit_refuted. Qed.
Print Assumptions C101_product_needs_fit_refuted.

(** Both operands brought to sixths exceed the type, their difference is exact. *)
Example c101_example : unsigned_rep uint32 /\ wf_args uint32 (RR (mkRaw 2147483649 2) (mkRaw 3221225473 3)) /\
  reduces_inputs defaults = true /\ built_on_safe defaults = true /\
  rmax uint32 < over (2147483649 # 2) 6 /\ rmax uint32 < over (3221225473 # 3) 6 /\
  p_arith (denote defaults) uint32 Minus (RR (mkRaw 2147483649 2) (mkRaw 3221225473 3)) = Ok (mkRaw 1 6) /\
  same_value (value (mkRaw 1 6)) (Some ((2147483649 # 2) - (3221225473 # 3))%Q).
Proof.
  repeat split; try (vm_compute; congruence).
Qed.

(** The least common denominator does not fit: no result under policies built on safe,
    a wrapped one under policies built on fast. *)
Example c101_no_denominator : wf_args uint32 (RR (mkRaw 1 65536) (mkRaw 1 65537)) /\
  (exists u, p_arith (denote defaults) uint32 Plus (RR (mkRaw 1 65536) (mkRaw 1 65537)) = UB u) /\
  p_arith (denote (ReducedInput Fast normalize_signs_mode)) uint32 Plus (RR (mkRaw 1 65536) (mkRaw 1 65537)) =
    Ok (mkRaw 131073 65536).
Proof.
  repeat split; try (vm_compute; congruence). eexists. vm_compute. reflexivity.
Qed.
