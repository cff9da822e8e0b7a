(** Proofs of the statements in Props_Umixed.v. *)

From Coq Require Import ZArith QArith List Bool Lia Lqa.
From Verif Require Import Machine Raw Ops Spec Fraction Fraction_spec Fmath Mixed Mixed_spec Unsigned_spec Mixed3_spec MixDef_spec Umixed_spec.
From Verif Require Import Machine_proofs Value_proofs Mixed_proofs Mixed3_proofs Unsigned_proofs Umixed_proofs.
Open Scope Z_scope.

Lemma c112_as_signed : forall o t s e m, widens t s -> typed t e -> no_negation e ->
  meval (denote o) (retyped s e) = Ok m ->
  meval (denote o) e = Ok m /\ wf_mixed t t m /\ normal_form m /\ same_value (mixed_value m) (mdenotes e).
Proof. intros o t s e m H. exact (u_exact o t s H e m). Qed.

Lemma c112_as_fraction : forall o t s m r, widens t s -> wf_mixed t t m ->
  mixed_as_fraction (denote o) s s m = Ok r ->
  mixed_as_fraction (denote o) t t m = Ok r /\ wf_raw t r /\ same_value (value r) (mixed_value m).
Proof.
  intros o t s m r H W E. destruct (u_as_fraction o t s H m r W E) as [A B]. split; [|split]; auto.
  assert (S := retyped_signed t s H). destruct W as [W1 W2].
  apply (as_fraction_exact o s s m r S S); auto. split; [|now apply (widens_wf_raw t s)].
  now apply (widens_in' t s _ H).
Qed.

Lemma c112_total : forall o t B W e, unsigned_rep t -> output_canonical o = true -> 1 <= B <= W ->
  typed t e -> no_negation e -> small_mexpr B W e ->
  exists m, meval (denote o) e = Ok m /\ wf_mixed t t m /\ normal_form m /\ same_value (mixed_value m) (mdenotes e).
Proof. exact u_small. Qed.

Lemma c112_never_negative : forall tw tf m q, rsigned tw = false -> rsigned tf = false -> wf_mixed tw tf m ->
  mixed_value m = Some q -> (0 <= q)%Q.
Proof. exact u_value_nonneg. Qed.

Lemma c112_negate_refuted : exists e m, typed uint32 e /\ meval (denote defaults) e = Ok m /\
  ~ same_value (mixed_value m) (mdenotes e) /\ e = MNeg (MMake uint32 uint32 1 (mkRaw 1 2)).
Proof.
  eexists _, _. split; [|split; [|split; [|reflexivity]]].
  - cbn. unfold wf_raw. cbn. repeat split.
  - vm_compute. reflexivity.
  - vm_compute. discriminate.
Qed.

Lemma c112_wraps_refuted : exists e m, typed uint32 e /\ no_negation e /\ meval (denote defaults) e = Ok m /\
  ~ same_value (mixed_value m) (mdenotes e).
Proof.
  exists (MPlusWhole (MMake uint32 uint32 4294967295 (mkRaw 1 2)) uint32 1). eexists. split; [|split; [|split]].
  - cbn. unfold wf_raw. cbn. repeat split.
  - exact I.
  - vm_compute. reflexivity.
  - vm_compute. discriminate.
Qed.

