(** Proofs of the statements in Props_Unary.v. *)

From Coq Require Import ZArith QArith List Bool Lia.
From Verif Require Import Machine Raw Ops Spec Fraction Fmath Unary_spec Mixed_spec.
From Verif Require Import Machine_proofs Laws_proofs Unary_proofs.
Import ListNotations.
Open Scope Z_scope.

Lemma c89_reduce_defined_iff : forall t v m, signed_rep t -> wf_raw t v ->
  (exists r, reduce t v m = Ok r) <-> den v = 0 \/ no_minimum t v.
Proof. exact reduce_any_iff. Qed.

Lemma c89_normalize_signs_defined_iff : forall t v, signed_rep t -> wf_raw t v ->
  (exists r, normalize_signs t v = Ok r) <-> 0 < den v \/ no_minimum t v.
Proof. exact normalize_iff. Qed.

Lemma c89_queries_defined_iff : forall t v, signed_rep t -> wf_raw t v ->
  ((exists b, is_unit_fraction t v = Ok b) <-> ~ (num v = -1 /\ den v = rmin t)) /\
  ((exists b, is_proper t v = Ok b) <-> no_minimum t v) /\
  ((exists b, is_improper t v = Ok b) <-> no_minimum t v) /\
  ((exists b, is_reduced_ignore_signs t v = Ok b) <-> den v = 0 \/ no_minimum t v) /\
  ((exists b, is_reduced t v = Ok b) <-> den v = 0 \/ no_minimum t v \/ num v <= 0 /\ den v < 0).
Proof.
  intros t v SR WV. split; [exact (is_unit_iff t v SR WV)|]. split; [exact (is_proper_iff t v SR WV)|].
  split; [exact (is_improper_iff t v SR WV)|]. split; [exact (reduced_ignore_iff t v SR WV)|exact (is_reduced_iff t v SR WV)].
Qed.

Lemma c89_negate_defined_iff : forall o t v, signed_rep t -> wf_raw t v ->
  (exists r, f_negate (denote o) t v = Ok r) <->
  if reduces_inputs o then den v = 0 \/ no_minimum t v
  else if plain o then num v <> rmin t
  else no_minimum t v.
Proof.
  intros o t v SR WV. destruct (reduces_inputs o) eqn:RI; [now apply negate_reduced_iff|].
  destruct (plain o) eqn:P; [now apply base_negate_iff|].
  rewrite (negate_output_iff o t v SR WV RI P). unfold no_minimum.
  pose proof (rmin_rmax_signed t (proj2 SR)). pose proof (rmax_big t (proj1 SR)). lia.
Qed.

Lemma c89_abs_defined_iff : forall o t v q, signed_rep t -> wf_raw t v -> value v = Some q ->
  ((0 <= q)%Q -> f_abs (denote o) t v = Ok v) /\
  ((q < 0)%Q -> (exists r, f_abs (denote o) t v = Ok r) <-> (exists r, f_negate (denote o) t v = Ok r)).
Proof.
  intros o t v q SR WV V.
  assert (K : is_non_negative v = true <-> (0 <= q)%Q).
  { pose proof (is_non_negative_spec v) as E. unfold value_is in E. rewrite V in E. exact E. }
  unfold f_abs. split; intros H.
  - now rewrite (proj2 K H).
  - destruct (is_non_negative v) eqn:E; [|tauto]. exfalso. apply (Qlt_not_le _ _ H). now apply K.
Qed.

