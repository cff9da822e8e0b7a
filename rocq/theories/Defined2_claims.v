(** Proofs of the statements in Props_Defined2.v. *)

From Coq Require Import ZArith QArith Qround List Bool Lia.
From Verif Require Import Machine Raw Ops Spec Fraction Mixed_spec Fmath Defined_spec Defined2_spec.
From Verif Require Import Defined_proofs Defined2_proofs.
Import ListNotations.
Open Scope Z_scope.

Lemma c82_cmp_int_defined_iff : forall t op l z a, signed_rep t ->
  raw_bounded (rmax t) l -> 0 < den l -> in_rep t z = true -> value l = Some a ->
  (exists v, p_cmp (denote defaults) t op (RI l z) = Ok v) <-> common_fits (rmax t) a (inject_Z z).
Proof. exact io_cmp_ri_iff. Qed.

Lemma c82_int_cmp_defined_iff : forall t op z r b, signed_rep t ->
  raw_bounded (rmax t) r -> 0 < den r -> in_rep t z = true -> value r = Some b ->
  (exists v, p_cmp (denote defaults) t op (IR z r) = Ok v) <-> common_fits (rmax t) (inject_Z z) b.
Proof. exact io_cmp_ir_iff. Qed.

Lemma c81_fast_refuted : exists l l' r,
  raw_bounded (rmax int32) l /\ raw_bounded (rmax int32) l' /\ raw_bounded (rmax int32) r /\
  same_value (value l) (value l') /\
  ~ agree (p_arith (denote fast_reduced_io) int32 Plus (RR l r)) (p_arith (denote fast_reduced_io) int32 Plus (RR l' r)).
Proof.
  exists (mkRaw (-65536) 1), (mkRaw 65536 (-1)), (mkRaw 1 32768).
  repeat split; try (vm_compute; (reflexivity || (intros; discriminate))).
  intros A. destruct (A (mkRaw (-2147483647) 32768)) as [B _].
  assert (X : p_arith (denote fast_reduced_io) int32 Plus (RR (mkRaw (-65536) 1) (mkRaw 1 32768)) = Ok (mkRaw (-2147483647) 32768))
    by (vm_compute; reflexivity).
  apply B in X. vm_compute in X. discriminate.
Qed.

Lemma c83_round_defined_iff : forall t v a, signed_rep t ->
  raw_bounded (rmax t) v -> 0 < den v -> value v = Some a ->
  (exists k, f_round (denote defaults) t v = Ok k) <-> round_fits (rmax t) a.
Proof. exact round_iff. Qed.

Lemma c83_redenominate_defined_iff : forall t v a d m, signed_rep t ->
  raw_bounded (rmax t) v -> in_rep t d = true -> value v = Some a ->
  (exists r, f_redenominate (denote defaults) t v d m = Ok r) <-> redenominate_fits (rmax t) m a d.
Proof. exact redenominate_iff. Qed.

