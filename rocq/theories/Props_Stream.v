(** Property theorems: streams.

    Each is closed by the lemma of the same name in Stream_claims.v. *)

From Coq Require Import String ZArith List Bool Lia.
From Verif Require Import Machine Raw Stream Stream_spec Parse_spec.
From Verif Require Import Machine_proofs Stream_proofs.
Import ListNotations.
Open Scope Z_scope.
From Verif Require Import Stream_claims.

(** C47 *)
Theorem C47_round_trip : forall t v rest old,
  numeric t -> wf_raw t v -> no_digit_first rest ->
  exists e, get_raw t (mkIn (put_raw v ++ rest) false false) old = (mkIn rest false e, v).
Proof. exact c47_round_trip. Qed.
Print Assumptions C47_round_trip.

(** C47: any number of fractions, with blanks after each. *)
Theorem C47_sequence_round_trip : forall t sep vs old,
  numeric t -> sep <> [] -> Forall blank sep -> Forall (wf_raw t) vs ->
  exists s, get_all t (length vs) (mkIn (put_all sep vs) false false) old = (s, vs) /\
    failbit s = false /\ Forall blank (unread s).
Proof. exact c47_sequence_round_trip. Qed.
Print Assumptions C47_sequence_round_trip.

(** C47: what is written is the numerator, a slash and the denominator, each in
    decimal and as short as possible. *)
Theorem C47_written_form : forall v, exists n d,
  put_raw v = n ++ [47] ++ d /\
  numeral n (num v <? 0) (Z.abs (num v)) /\ numeral d (den v <? 0) (Z.abs (den v)) /\
  (forall s, numeral s (num v <? 0) (Z.abs (num v)) -> (length n <= length s)%nat) /\
  (forall s, numeral s (den v <? 0) (Z.abs (den v)) -> (length d <= length s)%nat).
Proof. exact c47_written_form. Qed.
Print Assumptions C47_written_form.

(** C47: different fractions are written differently. *)
Theorem C47_injective : forall t v w, numeric t -> wf_raw t v -> wf_raw t w -> put_raw v = put_raw w -> v = w.
Proof. exact c47_injective. Qed.
Print Assumptions C47_injective.

Example C47_nonvacuous :
  put_raw (mkRaw (-2147483648) 305) = codes "-2147483648/305" /\
  get_raw int32 (mkIn (codes "-2147483648/305;x") false false) (mkRaw 7 7)
    = (mkIn (codes ";x") false false, mkRaw (-2147483648) 305) /\
  put_raw (mkRaw 0 0) = codes "0/0" /\
  get_all int32 2 (mkIn (put_all (codes " ") [mkRaw 1 (-2); mkRaw 3 4]) false false) (mkRaw 7 7)
    = (mkIn (codes " ") false false, [mkRaw 1 (-2); mkRaw 3 4]).
Proof. repeat split. Qed.

(** C48: reading succeeds on exactly the texts of the specified form, with the
    values they spell, and leaves the rest unread. *)
Theorem C48_accepts : forall t text v rest old,
  numeric t -> fraction_text t text v rest ->
  get_raw t (mkIn text false false) old = (mkIn rest false (match rest with [] => true | _ => false end), v).
Proof. exact c48_accepts. Qed.
Print Assumptions C48_accepts.

Theorem C48_only_accepts : forall t s old s' v,
  numeric t -> get_raw t s old = (s', v) -> failbit s' = false ->
  failbit s = false /\ eofbit s = false /\ fraction_text t (unread s) v (unread s').
Proof. exact c48_only_accepts. Qed.
Print Assumptions C48_only_accepts.

Theorem C48_fails_iff : forall t text old,
  numeric t ->
  failbit (fst (get_raw t (mkIn text false false) old)) = true <->
  ~ exists v rest, fraction_text t text v rest.
Proof. exact c48_fails_iff. Qed.
Print Assumptions C48_fails_iff.

(** C48: so no text spells two fractions. *)
Theorem C48_unambiguous : forall t text v rest v' rest',
  numeric t -> fraction_text t text v rest -> fraction_text t text v' rest' -> v = v' /\ rest = rest'.
Proof. exact c48_unambiguous. Qed.
Print Assumptions C48_unambiguous.

(** C48: a failure is not atomic: without a slash the numerator has been
    replaced and the denominator has not. *)
Theorem C48_no_slash_overwrites : forall t b n z mid old,
  numeric t -> Forall blank b -> reads_as t n z -> no_digit_first mid -> ~ In 47 mid ->
  get_raw t (mkIn (b ++ n ++ mid) false false) old = (mkIn [] true true, mkRaw z (den old)).
Proof. exact c48_no_slash_overwrites. Qed.
Print Assumptions C48_no_slash_overwrites.

(** C48: what any failed read leaves in the fraction, and unread. *)
Theorem C48_failure : forall t text old s v, numeric t ->
  get_raw t (mkIn text false false) old = (s, v) -> failbit s = true -> failed_read t old text v (unread s).
Proof. exact c48_failure. Qed.
Print Assumptions C48_failure.

(** C48: after a read from a good stream, failed or not, eofbit tells that nothing is left. *)
Theorem C48_eof : forall t text old s v, numeric t ->
  get_raw t (mkIn text false false) old = (s, v) -> (eofbit s = true <-> unread s = []).
Proof. exact c48_eof. Qed.
Print Assumptions C48_eof.

(** C48: a stream already failed or at its end is left as it is. *)
Theorem C48_bad_stream : forall t s old, failbit s = true \/ eofbit s = true ->
  get_raw t s old = (mkIn (unread s) true (eofbit s), old).
Proof. exact c48_bad_stream. Qed.
Print Assumptions C48_bad_stream.

Example C48_nonvacuous :
  get_raw int32 (mkIn (codes " -3 / +4,5") false false) (mkRaw 7 9) = (mkIn (codes ",5") false false, mkRaw (-3) 4) /\
  get_raw int32 (mkIn (codes "3 apples / 4") false false) (mkRaw 7 9) = (mkIn [] false true, mkRaw 3 4) /\
  get_raw int32 (mkIn (codes "3") false false) (mkRaw 7 9) = (mkIn [] true true, mkRaw 3 9) /\
  get_raw int32 (mkIn (codes "  ") false false) (mkRaw 7 9) = (mkIn [] true true, mkRaw 7 9) /\
  get_raw int32 (mkIn (codes "3/ ") false false) (mkRaw 7 9) = (mkIn [] true true, mkRaw 3 9) /\
  get_raw int32 (mkIn (codes "3/x") false false) (mkRaw 7 9) = (mkIn (codes "x") true false, mkRaw 3 0) /\
  get_raw int32 (mkIn (codes "3000000000/4") false false) (mkRaw 7 9) = (mkIn (codes "/4") true false, mkRaw 2147483647 9) /\
  get_raw uint32 (mkIn (codes "-1/4") false false) (mkRaw 7 9) = (mkIn [] false true, mkRaw 4294967295 4).
Proof. repeat split. Qed.
