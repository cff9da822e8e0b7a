(** Proofs of the statements in Props_Outcome.v. *)

From Coq Require Import ZArith Bool Lia List.
From Verif Require Import Machine Raw Ops Spec Fraction Stack_spec Outcome_spec.
From Verif Require Import Machine_proofs Stack_proofs Outcome_proofs.
Import ListNotations.
Open Scope Z_scope.

Lemma c104_arith : forall o t op a v, wf_rep t -> wf_args t a ->
  p_arith (denote o) t op a = Ok v <->
  reducible_args t (effect (input_modes o)) a /\
  exists x, returns t (on_lcm o) op (lowest_args (effect (input_modes o)) a) x /\
    reducible t (effect (output_modes o)) x /\ v = lowest (effect (output_modes o)) x.
Proof. intros. now apply arith_outcome. Qed.

Lemma c104_cmp : forall o t op a v, wf_rep t -> wf_args t a ->
  p_cmp (denote o) t op a = Ok v <->
  reducible_args t (effect (input_modes o)) a /\ decides t (on_lcm o) op (lowest_args (effect (input_modes o)) a) v.
Proof. intros. now apply cmp_outcome. Qed.

Lemma c104_negate : forall o t v r, wf_rep t -> wf_raw t v ->
  p_negate (denote o) t v = Ok r <->
  exists i x n, i = match effect (input_modes o) with Absent => Absent | _ => Normalising end /\
    reducible t i v /\ x = lowest i v /\ holds t (- num x) n /\
    reducible t (effect (output_modes o)) (mkRaw n (den x)) /\ r = lowest (effect (output_modes o)) (mkRaw n (den x)).
Proof. intros. now apply negate_outcome. Qed.

Lemma c104_reduce : forall t v r, wf_rep t -> wf_raw t v ->
  (reduce t v ignore_signs_mode = Ok r <-> reducible t Keeping v /\ r = lowest Keeping v) /\
  (reduce t v normalize_signs_mode = Ok r <-> reducible t Normalising v /\ r = lowest Normalising v).
Proof. intros t v r W V. split; [exact (layer_iff t Keeping v r W V)|exact (layer_iff t Normalising v r W V)]. Qed.

Lemma c104_integers : forall t op cop a,
  (two_fractions a = false -> p_arith (denote Safe) t op a = p_arith (denote Fast) t op a) /\
  (two_fractions a = false -> p_cmp (denote Safe) t cop a = p_cmp (denote Fast) t cop a) /\
  (op = Multiplies \/ op = Divides -> p_arith (denote Safe) t op a = p_arith (denote Fast) t op a).
Proof.
  intros t op cop a. split; [|split]; cbn [denote].
  - intros E. now apply int_same.
  - intros E. now apply int_cmp_same.
  - intros [-> | ->]; destruct a; reflexivity.
Qed.

Lemma c104_integer_as_fraction : forall t op l z v, wf_rep t -> wf_raw t l -> in_rep t z = true ->
  (p_arith (denote Fast) t op (RI l z) = Ok v <-> p_arith (denote Fast) t op (RR l (mkRaw z 1)) = Ok v) /\
  (p_arith (denote Fast) t op (IR z l) = Ok v <-> p_arith (denote Fast) t op (RR (mkRaw z 1) l) = Ok v).
Proof.
  intros t op l z v W WL IZ.
  assert (I1 : in_rep t 1 = true).
  { apply rep_range; auto. unfold rmax. unfold wf_rep in W.
    assert (2 ^ 1 <= 2 ^ (rbits t - 1)) by (apply Z.pow_le_mono_r; lia). assert (2 ^ 1 <= 2 ^ rbits t) by (apply Z.pow_le_mono_r; lia).
    change (2 ^ 1) with 2 in *. destruct (rsigned t); lia. }
  assert (WZ : wf_raw t (mkRaw z 1)) by now split.
  split; rewrite !bottom_arith by (auto; now split); reflexivity.
Qed.

