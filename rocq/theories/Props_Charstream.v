(** Property theorems: streams of fractions of character types.

    Each is closed by the lemma of the same name in Charstream_claims.v. *)

From Coq Require Import String ZArith List Bool Lia.
From Verif Require Import Machine Raw Stream Stream_spec Parse_spec Charstream Charstream_spec.
From Verif Require Import Machine_proofs Stream_proofs Charstream_proofs.
Import ListNotations.
Open Scope Z_scope.
From Verif Require Import Charstream_claims.

(** C111: a fraction of a character type is written as the characters whose codes its
    parts are, with a slash between, and different fractions differently. *)
Theorem C111_written_form : forall v, exists n d,
  put_raw_char v = [n; 47; d] /\ is_char (num v) n /\ is_char (den v) d.
Proof. exact c111_written_form. Qed.
Print Assumptions C111_written_form.

Theorem C111_injective : forall t v w, character t -> wf_raw t v -> wf_raw t w -> put_raw_char v = put_raw_char w -> v = w.
Proof. exact c111_injective. Qed.
Print Assumptions C111_injective.

(** C111: reading succeeds on exactly the texts of the specified form, with the codes
    of the characters as the parts, and leaves the rest unread. *)
Theorem C111_accepts : forall t text v rest old, character t -> char_text t text v rest ->
  get_raw_char t (mkIn text false false) old = (mkIn rest false false, v).
Proof. exact c111_accepts. Qed.
Print Assumptions C111_accepts.

Theorem C111_only_accepts : forall t s old s' v, character t -> codes_only (unread s) ->
  get_raw_char t s old = (s', v) -> failbit s' = false ->
  failbit s = false /\ eofbit s = false /\ char_text t (unread s) v (unread s').
Proof. exact c111_only_accepts. Qed.
Print Assumptions C111_only_accepts.

(** C111: so what was written is read back exactly when neither part is the code of a
    blank. *)
Theorem C111_round_trip_iff : forall t v n d rest old, character t -> wf_raw t v -> codes_only rest ->
  is_char (num v) n -> is_char (den v) d ->
  (get_raw_char t (mkIn (put_raw_char v ++ rest) false false) old = (mkIn rest false false, v) <-> ~ blank n /\ ~ blank d).
Proof. exact c111_round_trip_iff. Qed.
Print Assumptions C111_round_trip_iff.

(** C111: a blank numerator is replaced by the slash, a blank denominator by what
    follows, without failure. *)
Theorem C111_numerator_refuted : forall t v n rest old, character t -> is_char (num v) n -> blank n ->
  num (snd (get_raw_char t (mkIn (put_raw_char v ++ rest) false false) old)) = 47.
Proof. exact c111_numerator_refuted. Qed.
Print Assumptions C111_numerator_refuted.

Theorem C111_denominator_refuted : forall t v n d c rest old, character t -> wf_raw t v ->
  is_char (num v) n -> ~ blank n -> is_char (den v) d -> blank d -> ~ blank c -> 0 <= c < 256 ->
  exists e, is_char e c /\ in_rep t e = true /\
  get_raw_char t (mkIn (put_raw_char v ++ [c] ++ rest) false false) old = (mkIn rest false false, mkRaw (num v) e).
Proof. exact c111_denominator_refuted. Qed.
Print Assumptions C111_denominator_refuted.

(** C111: a fraction written in decimal, by a fraction of another type, is read as the
    codes of the digits. *)
Theorem C111_decimal_refuted : forall t a b old, character t -> 0 <= a <= 9 -> 0 <= b <= 9 ->
  get_raw_char t (mkIn (put_raw (mkRaw a b)) false false) old = (mkIn [] false false, mkRaw (a + 48) (b + 48)).
Proof. exact c111_decimal_refuted. Qed.
Print Assumptions C111_decimal_refuted.

Example C111_nonvacuous :
  put_raw_char (mkRaw 65 66) = codes "A/B" /\
  put_raw_char (mkRaw (-1) 2) = [255; 47; 2] /\
  get_raw_char (mkRep true 8) (mkIn [255; 47; 2] false false) (mkRaw 7 9) = (mkIn [] false false, mkRaw (-1) 2) /\
  get_raw_char (mkRep false 8) (mkIn [255; 47; 2] false false) (mkRaw 7 9) = (mkIn [] false false, mkRaw 255 2) /\
  get_raw_char (mkRep true 8) (mkIn (put_raw_char (mkRaw 3 10) ++ codes "1/2") false false) (mkRaw 7 9)
    = (mkIn (codes "/2") false false, mkRaw 3 49) /\
  get_raw_char (mkRep true 8) (mkIn (put_raw_char (mkRaw 10 3)) false false) (mkRaw 7 9) = (mkIn [] true true, mkRaw 47 9) /\
  get_raw_char (mkRep true 8) (mkIn (codes "3/4") false false) (mkRaw 7 9) = (mkIn [] false false, mkRaw 51 52) /\
  get_raw_char (mkRep true 8) (mkIn (codes "12/34") false false) (mkRaw 7 9) = (mkIn (codes "4") false false, mkRaw 49 51).
Proof. repeat split. Qed.
