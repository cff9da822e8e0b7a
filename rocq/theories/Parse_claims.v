(** Proofs of the statements in Props_Parse.v. *)

From Coq Require Import String ZArith QArith Qpower List Bool Lia.
From Verif Require Import Machine Raw Ops Spec Fraction Fmath Parse Parse_spec.
From Verif Require Import Machine_proofs Value_proofs Ops_proofs Parse_proofs Parse2_proofs.
Import ListNotations.
Open Scope Z_scope.

Lemma c33_valid_iff_digit_sequence : forall base s,
  base = 10 \/ base = 16 ->
  (is_valid_digit_sequence s base = true <-> digit_seq base s).
Proof. exact valid_digits_iff. Qed.

Lemma c33_signed_value : forall t base s,
  wf_rep t -> rsigned t = true -> base = 10 \/ base = 16 -> digit_seq base s ->
  (base ^ num_digits s <= rmax t -> digit_sequence_to_int t s base = Ok (seq_value base s)) /\
  (rmax t < base ^ num_digits s -> digit_sequence_to_int t s base = UB Overflow).
Proof.
  intros t base s W S B D. rewrite to_int_signed; auto; [|lia|now apply digit_seq_chars].
  destruct (Z.leb_spec (base ^ num_digits s) (rmax t)); split; intros; try reflexivity; lia.
Qed.

Lemma c33_unsigned_value : forall t base s,
  wf_rep t -> rsigned t = false -> base = 10 \/ base = 16 -> digit_seq base s ->
  digit_sequence_to_int t s base = Ok (seq_value base s mod 2 ^ rbits t).
Proof. intros t base s W S B D. apply to_int_unsigned; auto; [lia|now apply digit_seq_chars]. Qed.

Lemma c33_value_bounds : forall base s,
  base = 10 \/ base = 16 -> digit_seq base s -> 0 <= seq_value base s < base ^ num_digits s.
Proof. intros base s B D. apply seq_value_bounds; [lia|now apply digit_seq_chars]. Qed.

Lemma c34_never_undefined : forall s,
  Z.of_nat (length s) < 2 ^ 63 -> exists x, scan_floating_point_string s = Ok x.
Proof. intros s H. rewrite scan_eq by exact H. eauto. Qed.

Lemma c34_accepts_literals_only : forall s r,
  Z.of_nat (length s) < 2 ^ 63 -> scan_floating_point_string s = Ok (Some r) ->
  exists l, valid_literal l /\ s = spell l /\ parts_of r l.
Proof.
  intros s r L H. rewrite scan_eq in H by exact L. inversion H as [E].
  destruct (scan_sound s r E) as [l [V [Q [P _]]]]. eauto.
Qed.

Lemma c34_accepts_every_literal : forall l,
  Z.of_nat (length (spell l)) < 2 ^ 63 -> valid_literal l ->
  exists r, scan_floating_point_string (spell l) = Ok (Some r) /\ parts_of r l.
Proof.
  intros l L V. rewrite scan_eq by exact L. destruct (scan_complete l V) as [r [E [P _]]].
  exists r. split; [now rewrite E|auto].
Qed.

Lemma c34_unambiguous : forall l1 l2,
  valid_literal l1 -> valid_literal l2 -> spell l1 = spell l2 ->
  l_base l1 = l_base l2 /\ l_whole l1 = l_whole l2 /\ l_fraction l1 = l_fraction l2 /\ l_scale l1 = l_scale l2.
Proof. exact literal_unambiguous. Qed.

Lemma c34_precision : forall s r,
  Z.of_nat (length s) <= 2147483647 -> scan_floating_point_string s = Ok (Some r) ->
  sc_precision r = num_digits (sc_fractional r).
Proof.
  intros s r L H. rewrite scan_eq in H by (unfold small, sv_size; lia). inversion H as [E].
  destruct (scan_sound s r E) as [l [V [Q [P PR]]]]. destruct P as [_ [_ [P _]]]. rewrite P, PR.
  apply (count_digits_spec (l_base l)).
  - apply empty_or_chars. apply V.
  - rewrite Q in L. unfold spell in L. rewrite !app_length in L. lia.
Qed.

Lemma c35_accepts_with_point_partial : forall s,
  Z.of_nat (length s) < 2 ^ 63 -> (exists l, valid_literal l /\ s = spell l) ->
  exists r, scan_floating_point_string s = Ok (Some r).
Proof.
  intros s L [l [V ->]]. rewrite scan_eq by exact L. destruct (scan_complete l V) as [r [E _]].
  exists r. now rewrite E.
Qed.

Lemma c35_pointless_rejected : forall l,
  Z.of_nat (length (spell_pointless l)) < 2 ^ 63 -> valid_pointless l ->
  scan_floating_point_string (spell_pointless l) = Ok None.
Proof.
  intros l L V. rewrite scan_eq by exact L. now rewrite (scan_no_dot _ (pointless_no_dot l V)).
Qed.

Lemma c35_all_literals_refuted : exists s,
  cpp_floating_literal s /\ scan_floating_point_string s = Ok None.
Proof.
  exists (codes "1e5"). split; [|vm_compute; reflexivity]. right.
  exists (mkPointless [] (codes "1") (mkExp 101 None (codes "5"))). split; [left|reflexivity].
  split; [reflexivity|].
  split; [apply (valid_digits_iff 10); [now left|reflexivity]|].
  split; [now left|]. split; [now left|].
  apply (valid_digits_iff 10); [now left|reflexivity].
Qed.

Lemma c36_conversion_exact : forall o t l r,
  wf_rep t -> rsigned t = true -> valid_literal l -> Z.of_nat (length (spell l)) <= 2147483647 ->
  string_to_fraction (denote o) t (spell l) = Ok r ->
  exists v, value r = Some v /\ (v == literal_value l)%Q.
Proof. exact string_to_fraction_exact. Qed.

Lemma c36_rejected_is_undefined : forall o t s,
  Z.of_nat (length s) < 2 ^ 63 -> ~ (exists l, valid_literal l /\ s = spell l) ->
  string_to_fraction (denote o) t s = Ok (mkRaw 0 0).
Proof. exact string_to_fraction_rejects. Qed.

Lemma c36_value_unambiguous : forall l1 l2,
  valid_literal l1 -> valid_literal l2 -> spell l1 = spell l2 -> literal_value l1 = literal_value l2.
Proof. exact literal_value_unambiguous. Qed.

Lemma c37_digits_total_partial : forall t base s,
  wf_rep t -> base = 10 \/ base = 16 -> digit_seq base s -> base ^ num_digits s <= rmax t ->
  digit_sequence_to_int t s base = Ok (seq_value base s).
Proof. intros t base s W B D L. apply (to_int_total t base s (rmax t)); auto; [now right|lia]. Qed.

Lemma c37_literal_total : forall o t l,
  wf_rep t -> valid_literal l ->
  Z.of_nat (length (spell l)) <= 2147483647 -> exponent_digits l <= 9 ->
  l_base l ^ (num_digits (l_whole l) + num_digits (l_fraction l))
    * (if is_hex l then 2 else 10) ^ Z.abs (l_scale l) <= rmax t ->
  exists r, string_to_fraction (denote o) t (spell l) = Ok r.
Proof. exact string_to_fraction_total. Qed.

Lemma c37_representable_refuted : exists s,
  digit_seq 10 s /\ in_rep int32 (seq_value 10 s) = true /\
  digit_sequence_to_int int32 s 10 = UB Overflow.
Proof.
  exists (codes "2147483647"). split; [apply (valid_digits_iff 10); [now left|reflexivity]|].
  split; vm_compute; reflexivity.
Qed.

