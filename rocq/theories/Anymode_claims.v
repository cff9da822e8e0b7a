(** Proofs of the statements in Props_Anymode.v. *)

From Coq Require Import ZArith QArith Bool Lia.
From Verif Require Import Machine Raw Ops Modes Anymode Spec Anymode_spec.
From Verif Require Import Value_proofs Ops_proofs Algebra_proofs Arith_claims Anymode_proofs.
Open Scope Z_scope.

Lemma c119_named : forall z o, spells z o ->
  (forall t op a, p_arith (denote_any z) t op a = p_arith (denote o) t op a) /\
  (forall t op a, p_cmp (denote_any z) t op a = p_cmp (denote o) t op a) /\
  (forall t v, p_negate (denote_any z) t v = p_negate (denote o) t v).
Proof.
  intros z o S. rewrite (named_equal z o S). repeat split; reflexivity.
Qed.

Lemma c119_spelled : forall z, (exists o, spells z o) <-> ~ stray_input z /\ ~ stray_output z.
Proof.
  intros z. split; [|intros [I O]; now apply spelled].
  intros [o S]. induction S; cbn; unfold enumerator; try tauto; lia.
Qed.

Lemma c119_undefined : forall z t op a r, wf_rep t -> wf_args t a -> stray_input z \/ stray_output z ->
  p_arith (denote_any z) t op a = Ok r -> value r = None.
Proof. exact any_stray. Qed.

Lemma c119_never_wrong : forall z t op a r q, wf_rep t -> rsigned t = true -> wf_args t a -> defined_args a ->
  p_arith (denote_any z) t op a = Ok r -> value r = Some q ->
  same_value (Some q) (exact_opt op (left_value a) (right_value a)).
Proof.
  intros z t op a r q W S A D H V.
  assert (N : ~ (stray_input z \/ stray_output z)).
  { intros X. rewrite (any_stray z t op a r W A X H) in V. discriminate. }
  destruct (spelled z) as [o P]; [tauto|tauto|]. rewrite (named_equal z o P) in H.
  rewrite <- V. destruct D as [D1 D2].
  destruct (left_value a) as [x|] eqn:L; [|congruence]. destruct (right_value a) as [y|] eqn:R; [|congruence].
  rewrite <- L, <- R. apply (denote_exact o t op a r); auto. split; congruence.
Qed.

Lemma c119_output : forall z m t op a, ~ enumerator m ->
  p_arith (denote_any (AnyOutput z m)) t op a =
  match p_arith (denote_any z) t op a with Ok _ => Ok (mkRaw 0 0) | UB u => UB u end.
Proof.
  intros z m t op a N. cbn [denote_any]. rewrite roa_arith_eq.
  destruct (p_arith (denote_any z) t op a) as [x|u]; cbn [bind]; [|reflexivity]. now apply reduce_any_stray.
Qed.

Lemma c119_input_traps : forall z t op l r, wf_rep t -> wf_raw t l -> wf_raw t r ->
  rests_on_safe z = true -> stray_input z -> op = Plus \/ op = Minus \/ op = Modulus ->
  exists u, p_arith (denote_any z) t op (RR l r) = UB u.
Proof. exact any_traps. Qed.

Lemma c119_input_compares : forall z t op a b, wf_rep t -> wf_args t a -> stray_input z ->
  p_cmp (denote_any z) t op a = Ok b -> b = match op with Ne => true | _ => false end.
Proof. exact any_cmp_stray. Qed.

Lemma c119_output_compares : forall z,
  (forall o, compares_as z o -> forall t op a, p_cmp (denote_any z) t op a = p_cmp (denote o) t op a) /\
  (~ stray_input z -> exists o, compares_as z o).
Proof.
  intros z. split; [intros o C; now apply compares_equal|apply compares_total].
Qed.

Lemma c119_negates : forall z,
  (forall o, negates_as z o -> forall t v, p_negate (denote_any z) t v = p_negate (denote o) t v) /\
  (~ stray_output z -> exists o, negates_as z o).
Proof.
  intros z. split; [intros o C; now apply negates_equal|apply negates_total].
Qed.

Lemma c119_negates_undefined : forall z t v r, wf_rep t -> wf_raw t v -> stray_output z ->
  p_negate (denote_any z) t v = Ok r -> value r = None.
Proof. exact any_negate_stray. Qed.

Lemma c119_refuted :
  (exists z l r, p_arith (denote_any z) int32 Plus (RR l r) = Ok (mkRaw 0 0) /\ value l <> None /\ value r <> None) /\
  (exists z v, value v <> None /\ p_cmp (denote_any z) int32 Eq (RR v v) = Ok false).
Proof.
  split.
  - exists (AnyOutput AnySafe 7), (mkRaw 1 2), (mkRaw 1 3). split; [vm_compute; reflexivity|]. split; discriminate.
  - exists (AnyInput AnyFast 7), (mkRaw 1 2). split; [discriminate|vm_compute; reflexivity].
Qed.

