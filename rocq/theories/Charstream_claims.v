(** Proofs of the statements in Props_Charstream.v. *)

From Coq Require Import String ZArith List Bool Lia.
From Verif Require Import Machine Raw Stream Stream_spec Parse_spec Charstream Charstream_spec.
From Verif Require Import Machine_proofs Stream_proofs Charstream_proofs.
Import ListNotations.
Open Scope Z_scope.

Lemma c111_written_form : forall v, exists n d,
  put_raw_char v = [n; 47; d] /\ is_char (num v) n /\ is_char (den v) d.
Proof. intros v. exists (char_code (num v)), (char_code (den v)). repeat split; apply is_char_code. Qed.

Lemma c111_injective : forall t v w, character t -> wf_raw t v -> wf_raw t w -> put_raw_char v = put_raw_char w -> v = w.
Proof. exact put_raw_char_inj. Qed.

Lemma c111_accepts : forall t text v rest old, character t -> char_text t text v rest ->
  get_raw_char t (mkIn text false false) old = (mkIn rest false false, v).
Proof. exact get_raw_char_ok. Qed.

Lemma c111_only_accepts : forall t s old s' v, character t -> codes_only (unread s) ->
  get_raw_char t s old = (s', v) -> failbit s' = false ->
  failbit s = false /\ eofbit s = false /\ char_text t (unread s) v (unread s').
Proof. exact get_raw_char_inv. Qed.

Lemma c111_round_trip_iff : forall t v n d rest old, character t -> wf_raw t v -> codes_only rest ->
  is_char (num v) n -> is_char (den v) d ->
  (get_raw_char t (mkIn (put_raw_char v ++ rest) false false) old = (mkIn rest false false, v) <-> ~ blank n /\ ~ blank d).
Proof.
  intros t v n d rest old C W R N D. apply is_char_unique in N, D. subst. now apply char_round_trip_iff.
Qed.

Lemma c111_numerator_refuted : forall t v n rest old, character t -> is_char (num v) n -> blank n ->
  num (snd (get_raw_char t (mkIn (put_raw_char v ++ rest) false false) old)) = 47.
Proof. intros t v n rest old C N B. apply is_char_unique in N. subst. now apply blank_numerator. Qed.

Lemma c111_denominator_refuted : forall t v n d c rest old, character t -> wf_raw t v ->
  is_char (num v) n -> ~ blank n -> is_char (den v) d -> blank d -> ~ blank c -> 0 <= c < 256 ->
  exists e, is_char e c /\ in_rep t e = true /\
  get_raw_char t (mkIn (put_raw_char v ++ [c] ++ rest) false false) old = (mkIn rest false false, mkRaw (num v) e).
Proof.
  intros t v n d c rest old C W N BN D BD. apply is_char_unique in N, D. subst. now apply blank_denominator.
Qed.

Lemma c111_decimal_refuted : forall t a b old, character t -> 0 <= a <= 9 -> 0 <= b <= 9 ->
  get_raw_char t (mkIn (put_raw (mkRaw a b)) false false) old = (mkIn [] false false, mkRaw (a + 48) (b + 48)).
Proof. exact digits_as_chars. Qed.

