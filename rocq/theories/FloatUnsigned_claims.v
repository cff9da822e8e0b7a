(** Proofs of the statements in Props_FloatUnsigned.v. *)

From Coq Require Import ZArith QArith Qabs Lia Lqa.
From Flocq Require Import IEEE754.Binary IEEE754.Bits.
From Verif Require Import Machine Raw Ops Spec Fraction Float Float_spec Mixed_spec Unsigned_spec.
From Verif Require Import Machine_proofs Value_proofs Unsigned_proofs Float_proofs Float2_proofs Float4_proofs Float5_proofs.
Open Scope Z_scope.

Lemma c80_float_as_signed : forall o t s (x : binary32) q r,
  widens t s -> rbits t < 2 ^ 31 -> float_value x = Some q -> (0 < q)%Q ->
  to_fraction_float (denote o) s little x = Ok r -> to_fraction_float (denote o) t little x = Ok r.
Proof.
  intros o t s x q r WD B V P H. pose proof (proj1 WD) as W. unfold wf_rep in W.
  apply (of_float_unsigned 23 8 ltac:(lia) ltac:(lia) ltac:(lia) ltac:(cbn; lia) o t s 4 x q r WD); auto; lia.
Qed.

Lemma c80_double_as_signed : forall o t s (x : binary64) q r,
  widens t s -> 53 <= rbits t < 2 ^ 31 -> float_value x = Some q -> (0 < q)%Q ->
  to_fraction_double (denote o) s little x = Ok r -> to_fraction_double (denote o) t little x = Ok r.
Proof.
  intros o t s x q r WD B V P H.
  apply (of_float_unsigned 52 11 ltac:(lia) ltac:(lia) ltac:(lia) ltac:(cbn; lia) o t s 8 x q r WD); auto; lia.
Qed.

Lemma c80_float_total : forall o t (x : binary32) q,
  unsigned_rep t -> rbits t < 2 ^ 31 -> float_value x = Some q -> (0 < q)%Q ->
  between (Z.max (-126) (24 - rbits t)) (rbits t - 23) q ->
  exists r, to_fraction_float (denote o) t little x = Ok r /\ same_value (value r) (Some q).
Proof.
  intros o t x q U B V P R. pose proof (to_wider t U) as WD. pose proof (proj1 U) as W. unfold wf_rep in W.
  destruct (of_float_total 23 8 ltac:(lia) ltac:(lia) ltac:(lia) o (mkRep true (rbits t + 1)) 4 x q) as [r [H [E _]]]; auto.
  - split; [unfold wf_rep; cbn; lia|reflexivity].
  - cbn [rbits]. lia.
  - cbn [rbits]. change (2 ^ (8 - 1)) with 128. replace (23 + 2 - (rbits t + 1)) with (24 - rbits t) by ring.
    replace (rbits t + 1 - 23 - 1) with (rbits t - 23) by ring. exact R.
  - exists r. split; auto. eapply c80_float_as_signed; eauto.
Qed.

Lemma c80_double_total : forall o t (x : binary64) q,
  unsigned_rep t -> 53 <= rbits t < 2 ^ 31 -> float_value x = Some q -> (0 < q)%Q ->
  between (Z.max (-1022) (53 - rbits t)) (rbits t - 52) q ->
  exists r, to_fraction_double (denote o) t little x = Ok r /\ same_value (value r) (Some q).
Proof.
  intros o t x q U B V P R. pose proof (to_wider t U) as WD. pose proof (proj1 U) as W. unfold wf_rep in W.
  destruct (of_float_total 52 11 ltac:(lia) ltac:(lia) ltac:(lia) o (mkRep true (rbits t + 1)) 8 x q) as [r [H [E _]]]; auto.
  - split; [unfold wf_rep; cbn; lia|reflexivity].
  - cbn [rbits]. lia.
  - cbn [rbits]. change (2 ^ (11 - 1)) with 1024. replace (52 + 2 - (rbits t + 1)) with (53 - rbits t) by ring.
    replace (rbits t + 1 - 52 - 1) with (rbits t - 52) by ring. exact R.
  - exists r. split; auto. eapply c80_double_as_signed; eauto.
Qed.

Lemma c80_float_significant : forall o t (x : binary32) q k e,
  output_canonical o = true -> unsigned_rep t -> rbits t < 2 ^ 31 -> float_value x = Some q -> (0 < q)%Q ->
  significant k e q -> -126 <= e -> k + Z.abs e <= rbits t - 1 ->
  exists r, to_fraction_float (denote o) t little x = Ok r /\ same_value (value r) (Some q).
Proof.
  intros o t x q k e C U B V P S L K. pose proof (to_wider t U) as WD. pose proof (proj1 U) as W. unfold wf_rep in W.
  destruct (of_float_significant 23 8 ltac:(lia) ltac:(lia) ltac:(lia) ltac:(cbn; lia) o (mkRep true (rbits t + 1)) 4 x q k e) as [r [H [E _]]]; auto.
  - split; [unfold wf_rep; cbn; lia|reflexivity].
  - cbn [rbits]. lia.
  - cbn [rbits]. lia.
  - exists r. split; auto. eapply c80_float_as_signed; eauto.
Qed.

Lemma c80_negative_refuted :
  (forall o t (x : binary32) q r, unsigned_rep t -> float_value x = Some q -> (q < 0)%Q ->
     to_fraction_float (denote o) t little x = Ok r -> ~ same_value (value r) (Some q)) /\
  exists x : binary32, float_value x = Some (-8388608 * (2 # 1) ^ (-23))%Q /\
    to_fraction_float (denote defaults) uint32 little x = Ok (mkRaw 4294967295 1).
Proof.
  split.
  - intros o t x q r [W T] V N H E. unfold to_fraction_float in H. apply of_float_wf in H; auto.
    destruct (value r) as [v|] eqn:R; [|contradiction]. apply (unsigned_value t r v T H) in R. cbn in E. lra.
  - exists (B754_finite 24 128 true 8388608 (-23) eq_refl). split; [reflexivity|]. vm_compute. reflexivity.
Qed.

Lemma c80_overflow_refuted : exists (x : binary32) q r,
  float_value x = Some q /\ (0 < q)%Q /\
  to_fraction_float (denote defaults) uint32 little x = Ok r /\ ~ same_value (value r) (Some q).
Proof.
  exists (B754_finite 24 128 false 8388609 8 eq_refl). eexists. eexists. split; [reflexivity|]. split; [reflexivity|].
  split; [vm_compute; reflexivity|]. vm_compute. discriminate.
Qed.

