(** Proofs of the statements in Props_Tight.v. *)

From Coq Require Import ZArith QArith List Bool Lia.
From Verif Require Import Machine Raw Ops Spec Fraction Mixed_spec Tight_spec.
From Verif Require Import Machine_proofs Value_proofs Ops_proofs Tight_proofs.
Import ListNotations.
Open Scope Z_scope.

Lemma c64_fractions : forall o t op l r,
  signed_rep t -> products_fit (rmax t) op l r ->
  exists x, p_arith (denote o) t op (RR l r) = Ok x.
Proof.
  intros o t op l r S H. destruct (denote_tight o t op (RR l r) S H) as [x [E _]]. eauto.
Qed.

Lemma c64_fraction_integer : forall o t op l z,
  signed_rep t -> products_fit (rmax t) op l (mkRaw z 1) ->
  exists x, p_arith (denote o) t op (RI l z) = Ok x.
Proof.
  intros o t op l z S H. destruct (denote_tight o t op (RI l z) S H) as [x [E _]]. eauto.
Qed.

Lemma c64_integer_fraction : forall o t op z r,
  signed_rep t -> products_fit (rmax t) op (mkRaw z 1) r ->
  exists x, p_arith (denote o) t op (IR z r) = Ok x.
Proof.
  intros o t op z r S H. destruct (denote_tight o t op (IR z r) S H) as [x [E _]]. eauto.
Qed.

Lemma c64_comparisons : forall o t op l r,
  signed_rep t -> cross_fit (rmax t) l r -> exists b, p_cmp (denote o) t op (RR l r) = Ok b.
Proof. intros o t op l r S H. now apply denote_cmp_tight. Qed.

Lemma c64_integer_comparisons : forall o t op l z,
  signed_rep t -> cross_fit (rmax t) l (mkRaw z 1) ->
  (exists b, p_cmp (denote o) t op (RI l z) = Ok b) /\ (exists b, p_cmp (denote o) t op (IR z l) = Ok b).
Proof.
  intros o t op l z S H. split; apply denote_cmp_tight; auto. cbn [lraw rraw].
  unfold cross_fit in *. rewrite (Z.mul_comm (den (mkRaw z 1)) (den l)). tauto.
Qed.

