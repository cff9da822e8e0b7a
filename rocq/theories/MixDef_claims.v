(** Proofs of the statements in Props_MixDef.v. *)

From Coq Require Import ZArith QArith List Bool Lia.
From Verif Require Import Machine Raw Ops Spec Fraction Mixed Mixed_spec Defined_spec Unary_spec MixDef_spec.
From Verif Require Import Machine_proofs MixDef_proofs.
Import ListNotations.
Open Scope Z_scope.

Lemma c91_make_defined_iff : forall t w f, signed_rep t -> in_rep t w = true -> wf_raw t f ->
  (exists m, mixed_make (denote defaults) t t w f = Ok m) <->
  exists q, value f = Some q /\ no_minimum t f /\ in_rep t (w + Qtrunc q) = true.
Proof. exact make_iff. Qed.

Lemma c91_of_fraction_defined_iff : forall t f, signed_rep t -> wf_raw t f ->
  (exists m, mixed_of_fraction (denote defaults) t t t f = Ok m) <-> value f <> None /\ no_minimum t f.
Proof. exact of_fraction_iff. Qed.

Lemma c91_as_fraction_defined_iff : forall t m q, signed_rep t -> wf_mixed t t m -> normal_form m ->
  no_minimum t (fractional m) -> mixed_value m = Some q ->
  (exists r, mixed_as_fraction (denote defaults) t t m = Ok r) <-> Z.abs (low_num q) <= rmax t.
Proof. exact as_fraction_iff. Qed.

Lemma c91_expression_defined_iff : forall t e, signed_rep t -> typed t e ->
  (exists m, meval (denote defaults) e = Ok m) <-> mdefined (rmax t) e.
Proof. intros t e SR T. exact (proj1 (meval_iff t e SR T)). Qed.

