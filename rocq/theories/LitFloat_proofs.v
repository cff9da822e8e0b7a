(** Lemmas on literals converted to floating point. *)

From Coq Require Import ZArith Reals QArith Qabs Qreduction Qpower Qreals Bool Lia Lqa.
From Flocq Require Import Core.
From Flocq Require Import IEEE754.Binary IEEE754.Bits.
From Verif Require Import Machine Raw Ops Spec Fraction Float Float_spec Mixed_spec Parse Parse_spec Literals LitFloat_spec.
From Verif Require Import Machine_proofs Value_proofs Ops_proofs Tight_proofs Algebra_proofs.
From Verif Require Import Parse_proofs Parse2_proofs Defined_spec Defined_proofs LitDef_proofs Float_claims.
Open Scope Z_scope.

Lemma representable_le : forall prec z, 0 < prec -> Z.abs z <= 2 ^ prec -> exactly_representable prec z.
Proof.
  intros prec z P H. destruct (Z.eq_dec (Z.abs z) (2 ^ prec)) as [E|E].
  - exists (Z.sgn z * 2 ^ (prec - 1)), 1. split; [lia|].
    assert (X : 2 ^ prec = 2 ^ (prec - 1) * 2 ^ 1) by (rewrite <- Z.pow_add_r by lia; f_equal; lia).
    pose proof (Z.pow_pos_nonneg 2 (prec - 1) ltac:(lia) ltac:(lia)). split.
    + rewrite <- Z.mul_assoc, <- X, <- E. rewrite Z.mul_comm. symmetry. apply Z.abs_sgn.
    + rewrite Z.abs_mul, (Z.abs_eq (2 ^ (prec - 1))) by lia. rewrite X. change (2 ^ 1) with 2.
      assert (Z.abs (Z.sgn z) <= 1) by (destruct z; cbn; lia). nia.
  - exists z, 0. split; [lia|]. split; [now rewrite Z.pow_0_r, Z.mul_1_r|lia].
Qed.

(** The lowest terms of a fraction are no larger than the fraction. *)
Lemma lowest_le : forall M v q, natural M v -> value v = Some q ->
  Z.abs (Qnum (Qred q)) <= M /\ Zpos (Qden (Qred q)) <= M.
Proof.
  intros M v q [N D] V. unfold value in V. destruct (den v =? 0) eqn:Z0; [discriminate|]. inversion V as [E]; subst q.
  set (q := (inject_Z (num v) / inject_Z (den v))%Q).
  assert (Q : (q == Qmake (num v) (Z.to_pos (den v)))%Q).
  { unfold q. destruct (den v) as [|p|p] eqn:DV; try lia. rewrite qdiv_form by discriminate. unfold Qeq. cbn [Qnum Qden Z.sgn Z.abs Z.to_pos]. lia. }
  rewrite (Qred_complete _ _ Q). pose proof (Qred_correct (num v # Z.to_pos (den v))) as C.
  pose proof (low_canonical (num v # Z.to_pos (den v))) as G. unfold low_num, low_den in G.
  destruct (Qred (num v # Z.to_pos (den v))) as [n d]. cbn [Qnum Qden] in *.
  unfold Qeq in C. cbn [Qnum Qden] in C. rewrite Z2Pos.id in C by lia.
  (* n * den v = num v * d, gcd n d = 1 *)
  assert (K : (Zpos d | den v)).
  { apply (Z.gauss _ n); [exists (num v); lia|]. rewrite Z.gcd_comm. exact G. }
  destruct K as [k K]. assert (0 < k) by nia. assert (num v = n * k) by nia. split; nia.
Qed.

Section Literal.
  Variables (o : ops) (t : rep) (l : literal).
  Hypothesis W : signed_rep t.
  Hypothesis V : valid_literal l.
  Hypothesis L : Z.of_nat (length (spell l)) <= 2147483647.
  Hypothesis X : exponent_digits l <= 9.
  Hypothesis B : literal_size l <= rmax t.

  Lemma literal_parts : exists r q, string_to_fraction (denote o) t (spell l) = Ok r /\
    value r = Some q /\ (q == literal_value l)%Q /\ wf_raw t r /\
    Z.abs (num r) <= rmax t /\ Z.abs (den r) <= rmax t /\
    (forall prec, 0 < prec -> literal_size l <= 2 ^ prec ->
       exactly_representable prec (Qnum (Qred q)) /\ exactly_representable prec (Zpos (Qden (Qred q)))).
  Proof.
    destruct W as [W0 SG].
    destruct (string_to_fraction_natural o t l W0 V L X B) as (r & E & N). fold (literal_size l) in N.
    destruct (string_to_fraction_exact o t l r W0 SG V L E) as (q & VQ & EQ).
    exists r, q. repeat (split; [assumption|]). pose proof N as [N1 N2].
    split; [split; rewrite in_rep_iff; pose proof (rmin_nonpos t W0); lia|].
    split; [lia|]. split; [lia|]. intros prec P LE.
    destruct (lowest_le (literal_size l) r q N VQ) as [A C].
    split; apply representable_le; auto; lia.
  Qed.
End Literal.

Lemma literal_value_nonneg : forall l, valid_literal l -> (0 <= literal_value l)%Q.
Proof.
  intros l V. pose proof V as [_ [VW [VF _]]].
  assert (G : forall s, empty_or (digit_seq (l_base l)) s -> (0 <= inject_Z (seq_value (l_base l) s))%Q).
  { intros s G. change 0%Q with (inject_Z 0). rewrite <- Zle_Qle.
    apply seq_value_bounds; [unfold l_base; destruct (is_hex l); lia|now apply empty_or_chars]. }
  unfold literal_value. apply Qmult_le_0_compat.
  - setoid_replace 0%Q with (0 + 0)%Q by reflexivity. apply Qplus_le_compat; [now apply G|].
    apply Qle_shift_div_l.
    + change 0%Q with (inject_Z 0). rewrite <- Zlt_Qlt. apply Z.pow_pos_nonneg; [unfold l_base; destruct (is_hex l); lia|].
      unfold num_digits. lia.
    + rewrite Qmult_0_l. now apply G.
  - apply Qpower_pos. destruct (is_hex l); discriminate.
Qed.

(** What _dec returns lies strictly above the minimum. *)
Lemma dec_bounded : forall l r, valid_literal l -> Z.of_nat (length (spell l)) <= 2147483647 ->
  string_to_fraction (denote defaults) int64 (spell l) = Ok r ->
  0 <= num r <= rmax int64 /\ 0 < den r <= rmax int64.
Proof.
  intros l r V L H.
  assert (S : signed_rep int64) by (split; [unfold wf_rep; cbn; lia|reflexivity]). destruct S as [W S].
  destruct (string_wf_canonical int64 l r W S V L H) as [[IN ID] C].
  destruct (string_to_fraction_exact defaults int64 l r W S V L H) as (q & VQ & EQ).
  apply in_rep_iff in IN. apply in_rep_iff in ID.
  unfold value in VQ. destruct (den r =? 0) eqn:Z0; [discriminate|].
  destruct C as [C|[C _]]; [lia|]. split; [|lia]. split; [|lia].
  assert (N : (0 <= q)%Q).
  { rewrite EQ. now apply literal_value_nonneg. }
  inversion VQ as [E]. rewrite <- E in N.
  destruct (Z_lt_le_dec (num r) 0) as [Neg|]; auto. exfalso.
  apply (Qlt_not_le (inject_Z (num r) / inject_Z (den r)) 0); auto.
  apply Qlt_shift_div_r; [change 0%Q with (inject_Z 0); now rewrite <- Zlt_Qlt|]. rewrite Qmult_0_l.
  change 0%Q with (inject_Z 0). now rewrite <- Zlt_Qlt.
Qed.
