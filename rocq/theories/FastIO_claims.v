(** Proofs of the statements in Props_FastIO.v. *)

From Coq Require Import ZArith QArith List Bool Lia.
From Verif Require Import Machine Raw Ops Spec Fraction Fraction_spec Mixed_spec Defined_spec FastIO_spec.
From Verif Require Import Machine_proofs Tight_proofs Defined_proofs Defined2_proofs Value_proofs FastIO_proofs.
Import ListNotations.
Open Scope Z_scope.

Lemma c87_fast_arith_defined_iff : forall t op l r a b, signed_rep t ->
  raw_bounded (rmax t) l -> raw_bounded (rmax t) r -> 0 < den l -> 0 < den r ->
  value l = Some a -> value r = Some b ->
  (exists x, p_arith (denote fast_reduced_io) t op (RR l r) = Ok x) <-> fast_enough (rmax t) op a b.
Proof. exact fio_iff. Qed.

Lemma c87_fast_arith_int_defined_iff : forall t op l z a, signed_rep t ->
  raw_bounded (rmax t) l -> 0 < den l -> in_rep t z = true -> value l = Some a ->
  ((exists x, p_arith (denote fast_reduced_io) t op (RI l z) = Ok x) <-> fast_enough (rmax t) op a (inject_Z z)) /\
  ((exists x, p_arith (denote fast_reduced_io) t op (IR z l) = Ok x) <-> fast_enough (rmax t) op (inject_Z z) a).
Proof. intros. split; [now apply fio_ri_iff|now apply fio_ir_iff]. Qed.

Lemma c87_fast_cmp_defined_iff : forall t op l r a b, signed_rep t ->
  raw_bounded (rmax t) l -> raw_bounded (rmax t) r -> 0 < den l -> 0 < den r ->
  value l = Some a -> value r = Some b ->
  (exists x, p_cmp (denote fast_reduced_io) t op (RR l r) = Ok x) <-> cross_fits (rmax t) a b.
Proof. exact fio_cmp_iff. Qed.

Lemma c87_fast_cmp_int_defined_iff : forall t op l z a, signed_rep t ->
  raw_bounded (rmax t) l -> 0 < den l -> in_rep t z = true -> value l = Some a ->
  ((exists x, p_cmp (denote fast_reduced_io) t op (RI l z) = Ok x) <-> cross_fits (rmax t) a (inject_Z z)) /\
  ((exists x, p_cmp (denote fast_reduced_io) t op (IR z l) = Ok x) <-> cross_fits (rmax t) (inject_Z z) a).
Proof. intros. split; [now apply fio_cmp_ri_iff|now apply fio_cmp_ir_iff]. Qed.

Lemma c87_safe_replaces_fast : forall o t op a r, signed_rep t -> wf_args t a -> positive_dens a ->
  output_canonical o = true ->
  p_arith (denote o) t op a = Ok r -> p_arith (denote (on_safe o)) t op a = Ok r.
Proof. exact to_safe. Qed.

Lemma c87_safe_replaces_fast_expressions : forall o t e r q, signed_rep t -> wf_expr t e -> positive_leaves e ->
  output_canonical o = true -> denotes e = Some q ->
  eval (denote o) t e = Ok r -> eval (denote (on_safe o)) t e = Ok r.
Proof. exact eval_to_safe. Qed.

Lemma c87_neither_contains_refuted :
  (exists l r, 0 < den l /\ 0 < den r /\ p_arith (denote defaults) int32 Plus (RR l r) = Ok (mkRaw 1 32768) /\
     p_arith (denote fast_reduced_io) int32 Plus (RR l r) = UB Overflow) /\
  (exists l r, 0 < den l /\ 0 < den r /\ p_cmp (denote defaults) int32 Lt (RR l r) = Ok true /\
     p_cmp (denote fast_reduced_io) int32 Lt (RR l r) = UB Overflow) /\
  (exists l r, 0 < den l /\ 0 < den r /\ p_cmp (denote fast_reduced_io) int32 Lt (RR l r) = Ok true /\
     p_cmp (denote defaults) int32 Lt (RR l r) = UB LibPrecond).
Proof.
  split; [exists (mkRaw 1 65536), (mkRaw 1 65536)|split; [exists (mkRaw 65535 65536), (mkRaw 65537 65536)|exists (mkRaw 1 65537), (mkRaw 1 65536)]];
    repeat split; vm_compute; reflexivity.
Qed.

Lemma c87_same_domain : forall t op l r a b, signed_rep t ->
  raw_bounded (rmax t) l -> raw_bounded (rmax t) r -> 0 < den l -> 0 < den r ->
  value l = Some a -> value r = Some b ->
  op = Multiplies \/ op = Divides \/ Z.gcd (low_den a) (low_den b) = 1 ->
  agree (p_arith (denote fast_reduced_io) t op (RR l r)) (p_arith (denote defaults) t op (RR l r)).
Proof.
  intros t op l r a b SR BL BR PL PR VA VB C.
  assert (WA : wf_args t (RR l r)) by (destruct BL, BR, SR; repeat split; now apply abs_fits).
  assert (F : forall x, p_arith (denote fast_reduced_io) t op (RR l r) = Ok x -> p_arith (denote defaults) t op (RR l r) = Ok x)
    by (intros x H; exact (to_safe fast_reduced_io t op (RR l r) x SR WA (conj PL PR) eq_refl H)).
  intros x. split; [apply F|]. intros H.
  assert (E : enough (rmax t) op a b) by (apply (io_iff t op l r a b); eauto).
  assert (E' : fast_enough (rmax t) op a b).
  { destruct C as [C|[C|C]]; [apply products_enough; auto|apply products_enough; auto|].
    apply coprime_enough; auto. pose proof (rmax_big t (proj1 SR)). lia. }
  apply (proj2 (fio_iff t op l r a b SR BL BR PL PR VA VB)) in E' as [y Y].
  rewrite (F y Y) in H. now injection H as <-.
Qed.

