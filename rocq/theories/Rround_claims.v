(** Proofs of the statements in Props_Rround.v. *)

From Coq Require Import ZArith QArith Bool Lia List.
From Verif Require Import Machine Raw Ops Spec Fraction Fmath Fmath_spec Stack_spec Outcome_spec.
From Verif Require Import Machine_proofs Value_proofs Ops_proofs Fmath_proofs Rround_proofs.
Import ListNotations.
Open Scope Z_scope.

Lemma c30_round_output_partial : forall o t v k, wf_rep t -> rsigned t = true -> wf_raw t v ->
  on_lcm o = false -> effect (input_modes o) <> Normalising -> effect (output_modes o) = Normalising ->
  f_round (denote o) t v = Ok k ->
  exists q, value v = Some q /\ (~ below_minus_half q -> is_round k q) /\ (below_minus_half q -> k = 0).
Proof.
  intros o t v k W S V L I O H. destruct (round_output o t v k W S V L I O H) as (q & Q & A & B). exists q. auto.
Qed.

Lemma c30_round_reversed : forall o t v k, wf_rep t -> rsigned t = true -> wf_raw t v ->
  on_lcm o = false -> effect (input_modes o) <> Normalising -> effect (output_modes o) <> Normalising -> den v < 0 ->
  f_round (denote o) t v = Ok k ->
  exists q f, value v = Some q /\ (tiny_negative q -> f = 0) /\ (~ tiny_negative q -> is_floor f q) /\
    ((q <= inject_Z f + (1 # 2))%Q -> k = f + 1) /\ ((inject_Z f + (1 # 2) < q)%Q -> k = f).
Proof. intros. now apply (round_reversed o t v k). Qed.

Lemma c30_round_integer : forall o t n, wf_rep t -> rsigned t = true -> in_rep t n = true ->
  on_lcm o = false -> effect (input_modes o) <> Normalising -> effect (output_modes o) <> Normalising ->
  forall k, f_round (denote o) t (mkRaw n (-1)) = Ok k -> k = - n + 1.
Proof.
  intros o t n W S F L I O k H. assert (WV : wf_raw t (mkRaw n (-1))).
  { split; auto. cbn [den]. rewrite in_rep_iff. unfold rmin, rmax. rewrite S. unfold wf_rep in W.
    assert (2 ^ 31 <= 2 ^ (rbits t - 1)) by (apply Z.pow_le_mono_r; lia). change (2 ^ 31) with 2147483648 in *. lia. }
  destruct (round_reversed o t (mkRaw n (-1)) k W S WV L I O ltac:(cbn; lia) H) as (q & f & VQ & T & NT & A & _).
  rewrite value_defined in VQ by (cbn; lia). injection VQ as VQ. cbn [num den] in VQ.
  assert (QN : (q == inject_Z (- n))%Q) by (rewrite <- VQ; unfold Qeq; cbn; lia).
  assert (NTN : ~ tiny_negative q).
  { unfold tiny_negative. rewrite QN. change 0%Q with (inject_Z 0). rewrite <- !Zlt_Qlt. lia. }
  specialize (NT NTN). unfold is_floor in NT. rewrite QN, <- Zlt_Qlt, <- Zle_Qle in NT.
  assert (f = - n) by lia. subst f. apply A. rewrite QN, <- (Qplus_0_r (inject_Z (- n))) at 1.
  apply Qplus_le_compat; [apply Qle_refl|discriminate].
Qed.

