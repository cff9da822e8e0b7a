(** Proofs of the statements in Props_Defined.v. *)

From Coq Require Import ZArith QArith List Bool Lia.
From Verif Require Import Machine Raw Ops Spec Fraction Mixed_spec Defined_spec.
From Verif Require Import Defined_proofs.
Import ListNotations.
Open Scope Z_scope.

Lemma c81_arith_by_value : forall t op l r l' r', signed_rep t ->
  raw_bounded (rmax t) l -> raw_bounded (rmax t) r -> raw_bounded (rmax t) l' -> raw_bounded (rmax t) r' ->
  same_value (value l) (value l') -> same_value (value r) (value r') ->
  agree (p_arith (denote defaults) t op (RR l r)) (p_arith (denote defaults) t op (RR l' r')).
Proof. exact value_only. Qed.

Lemma c81_least_integer_refuted : exists l l' r, 
  wf_raw int32 l /\ wf_raw int32 l' /\ wf_raw int32 r /\ same_value (value l) (value l') /\
  ~ agree (p_arith (denote defaults) int32 Plus (RR l r)) (p_arith (denote defaults) int32 Plus (RR l' r)).
Proof.
  exists (mkRaw (-2147483648) 2), (mkRaw (-1073741824) 1), (mkRaw 0 1).
  repeat split; try (vm_compute; reflexivity).
  intros A. destruct (A (mkRaw (-1073741824) 1)) as [_ B].
  assert (X : p_arith (denote defaults) int32 Plus (RR (mkRaw (-1073741824) 1) (mkRaw 0 1)) = Ok (mkRaw (-1073741824) 1))
    by (vm_compute; reflexivity).
  apply B in X. vm_compute in X. discriminate.
Qed.

Lemma c81_cmp_by_value : forall t op l r l' r', signed_rep t ->
  raw_bounded (rmax t) l -> raw_bounded (rmax t) r -> raw_bounded (rmax t) l' -> raw_bounded (rmax t) r' ->
  same_value (value l) (value l') -> same_value (value r) (value r') ->
  agree (p_cmp (denote defaults) t op (RR l r)) (p_cmp (denote defaults) t op (RR l' r')).
Proof. exact cmp_value_only. Qed.

Lemma c82_arith_defined_iff : forall t op l r a b, signed_rep t ->
  raw_bounded (rmax t) l -> raw_bounded (rmax t) r -> value l = Some a -> value r = Some b ->
  (exists x, p_arith (denote defaults) t op (RR l r) = Ok x) <-> enough (rmax t) op a b.
Proof. exact io_iff. Qed.

Lemma c82_wider_still_defined : forall t u op l r x, signed_rep t -> signed_rep u -> rmax t <= rmax u ->
  raw_bounded (rmax t) l -> raw_bounded (rmax t) r ->
  p_arith (denote defaults) t op (RR l r) = Ok x -> p_arith (denote defaults) u op (RR l r) = Ok x.
Proof. exact io_wider. Qed.

Lemma c82_wider_cmp_still_defined : forall t u op l r v, signed_rep t -> signed_rep u -> rmax t <= rmax u ->
  raw_bounded (rmax t) l -> raw_bounded (rmax t) r ->
  p_cmp (denote defaults) t op (RR l r) = Ok v -> p_cmp (denote defaults) u op (RR l r) = Ok v.
Proof. exact io_cmp_wider. Qed.

Lemma c82_arith_int_defined_iff : forall t op l z a, signed_rep t ->
  raw_bounded (rmax t) l -> 0 < den l -> in_rep t z = true -> value l = Some a ->
  (exists x, p_arith (denote defaults) t op (RI l z) = Ok x) <-> enough (rmax t) op a (inject_Z z).
Proof. exact io_ri_iff. Qed.

Lemma c82_int_arith_defined_iff : forall t op z r b, signed_rep t ->
  raw_bounded (rmax t) r -> 0 < den r -> in_rep t z = true -> value r = Some b ->
  (exists x, p_arith (denote defaults) t op (IR z r) = Ok x) <-> enough (rmax t) op (inject_Z z) b.
Proof. intros t op z r b. exact (io_ir_iff t op r z b). Qed.

Lemma c82_cmp_defined_iff : forall t op l r a b, signed_rep t ->
  raw_bounded (rmax t) l -> raw_bounded (rmax t) r -> value l = Some a -> value r = Some b ->
  (exists v, p_cmp (denote defaults) t op (RR l r) = Ok v) <-> common_fits (rmax t) a b.
Proof. exact io_cmp_iff. Qed.

