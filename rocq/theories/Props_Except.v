(** Property theorems: streams that throw and devices that fill up.

    Each is closed by the lemma of the same name in Except_claims.v. *)

From Coq Require Import String ZArith List Bool Lia.
From Verif Require Import Machine Raw Stream Stream_spec Parse_spec Except Except_spec.
From Verif Require Import Machine_proofs Stream_proofs Except_proofs.
Import ListNotations.
Open Scope Z_scope.
From Verif Require Import Except_claims.

(** C110: a read that returns does what it does without an exception mask, and leaves
    no bit of the mask set; every other read ends the program. *)
Theorem C110_same : forall m t s old r,
  get_raw_ex m t s old = Returned r <-> get_raw t s old = r /\ quiet m (fst r).
Proof. exact c110_same. Qed.
Print Assumptions C110_same.

(** C110: with failbit in the mask the reads that return are those of the texts of
    fractions, followed by something if eofbit is in the mask too. *)
Theorem C110_returns_iff : forall m t text old, numeric t -> on_fail m = true ->
  ((exists r, get_raw_ex m t (mkIn text false false) old = Returned r) <->
   exists v rest, fraction_text t text v rest /\ (on_eof m = true -> rest <> [])).
Proof. exact c110_returns_iff. Qed.
Print Assumptions C110_returns_iff.

(** C110: they return the fraction spelled. *)
Theorem C110_accepts : forall m t text v rest old, numeric t -> fraction_text t text v rest ->
  (on_eof m = true -> rest <> []) ->
  get_raw_ex m t (mkIn text false false) old =
    Returned (mkIn rest false (match rest with [] => true | _ => false end), v).
Proof. exact c110_accepts. Qed.
Print Assumptions C110_accepts.

(** C110: malformed text is never reported by an exception: if the failure is in the
    mask the program ends. *)
Theorem C110_malformed_refuted : forall m t text old, numeric t -> on_fail m = true ->
  (~ exists v rest, fraction_text t text v rest) ->
  get_raw_ex m t (mkIn text false false) old = Terminated.
Proof. exact c110_malformed_refuted. Qed.
Print Assumptions C110_malformed_refuted.

(** C110: with eofbit in the mask not even the text of a fraction, and nothing more,
    can be read back. *)
Theorem C110_eof_refuted : forall m t v old, numeric t -> wf_raw t v -> on_eof m = true ->
  get_raw_ex m t (mkIn (put_raw v) false false) old = Terminated.
Proof. exact c110_eof_refuted. Qed.
Print Assumptions C110_eof_refuted.

(** C110: any number of fractions with blanks after each can be read under any mask;
    trying to read one more ends the program. *)
Theorem C110_sequence : forall m t sep vs old, numeric t -> sep <> [] -> Forall blank sep -> Forall (wf_raw t) vs ->
  exists s, get_all_ex m t (length vs) (mkIn (put_all sep vs) false false) old = Returned (s, vs) /\
    failbit s = false /\ eofbit s = false /\ Forall blank (unread s).
Proof. exact c110_sequence. Qed.
Print Assumptions C110_sequence.

Theorem C110_one_more_refuted : forall m t sep vs old, numeric t -> sep <> [] -> Forall blank sep -> Forall (wf_raw t) vs ->
  on_fail m || on_eof m = true ->
  get_all_ex m t (S (length vs)) (mkIn (put_all sep vs) false false) old = Terminated.
Proof. exact c110_one_more_refuted. Qed.
Print Assumptions C110_one_more_refuted.

Example C110_reading_nonvacuous :
  get_raw_ex (mkExc true false false) int32 (mkIn (codes " 3/4") false false) (mkRaw 7 9) = Returned (mkIn [] false true, mkRaw 3 4) /\
  get_raw_ex (mkExc true true true) int32 (mkIn (codes " 3/4;") false false) (mkRaw 7 9) = Returned (mkIn (codes ";") false false, mkRaw 3 4) /\
  get_raw_ex (mkExc true true true) int32 (mkIn (codes " 3/4") false false) (mkRaw 7 9) = Terminated /\
  get_raw_ex (mkExc true false false) int32 (mkIn (codes "x/4") false false) (mkRaw 7 9) = Terminated /\
  get_raw_ex (mkExc false true false) int32 (mkIn (codes "x/4") false false) (mkRaw 7 9) = Returned (mkIn (codes "x/4") true false, mkRaw 0 9) /\
  get_all_ex (mkExc true true true) int32 2 (mkIn (put_all (codes " ") [mkRaw 1 (-2); mkRaw 3 4]) false false) (mkRaw 7 7)
    = Returned (mkIn (codes " ") false false, [mkRaw 1 (-2); mkRaw 3 4]).
Proof. repeat split. Qed.

(** C110: writing with enough room appends the text of the fraction, under any mask. *)
Theorem C110_room : forall m q s v, ofailbit s = false -> obadbit s = false -> (length (put_raw v) <= room s)%nat ->
  put_raw_ex m q s v = Returned (mkOut (written s ++ put_raw v) (room s - length (put_raw v)) false false).
Proof. exact c110_room. Qed.
Print Assumptions C110_room.

(** C110: without enough room the device has taken as much of the text as it could
    hold and the stream is bad ... *)
Theorem C110_prefix : forall m q s v s', ofailbit s = false -> obadbit s = false -> put_raw_ex m q s v = Returned s' ->
  written s' = written s ++ firstn (room s) (put_raw v) /\
  (obadbit s' = true <-> (room s < length (put_raw v))%nat).
Proof. exact c110_prefix. Qed.
Print Assumptions C110_prefix.

(** C110: a full device sets badbit; failbit is set too only if something was still to
    be written to the bad stream, by a library whose sentry sets it ([q]). *)
Theorem C110_full_state : forall m q s v s', ofailbit s = false -> obadbit s = false -> put_raw_ex m q s v = Returned s' ->
  room s' = (room s - length (put_raw v))%nat /\
  (ofailbit s' = true <-> q = true /\ (room s <= length (put_int (num v)))%nat).
Proof. exact c110_full_state. Qed.
Print Assumptions C110_full_state.

(** C110: a stream that has failed takes nothing, and stays as it was but for that
    failbit. *)
Theorem C110_failed_stream : forall m q s v s', ofailbit s || obadbit s = true -> put_raw_ex m q s v = Returned s' ->
  s' = mkOut (written s) (room s) (ofailbit s || q) (obadbit s).
Proof. exact c110_failed_stream. Qed.
Print Assumptions C110_failed_stream.

(** C110: ... unless badbit is in the mask: then the program ends.  Without badbit and
    failbit in the mask writing always returns. *)
Theorem C110_full_refuted : forall m q s v, ofailbit s = false -> obadbit s = false -> on_bad m = true ->
  (room s < length (put_raw v))%nat -> put_raw_ex m q s v = Terminated.
Proof. exact c110_full_refuted. Qed.
Print Assumptions C110_full_refuted.

Theorem C110_writing_returns : forall m q s v, on_fail m = false -> on_bad m = false ->
  exists s', put_raw_ex m q s v = Returned s'.
Proof. exact c110_writing_returns. Qed.
Print Assumptions C110_writing_returns.

(** C110: a text that lost its last character on a full device is read back without
    failure, as the fraction with its denominator divided by ten. *)
Theorem C110_truncated_refuted : forall t v old, numeric t -> wf_raw t v -> 10 <= Z.abs (den v) ->
  get_raw t (mkIn (firstn (length (put_raw v) - 1) (put_raw v)) false false) old =
    (mkIn [] false true, mkRaw (num v) (Z.quot (den v) 10)).
Proof. exact c110_truncated_refuted. Qed.
Print Assumptions C110_truncated_refuted.

Example C110_writing_nonvacuous :
  put_raw_ex (mkExc true true true) true (mkOut (codes "=") 5 false false) (mkRaw (-1) 25) = Returned (mkOut (codes "=-1/25") 0 false false) /\
  put_raw_ex (mkExc false true false) true (mkOut [] 4 false false) (mkRaw (-1) 25) = Returned (mkOut (codes "-1/2") 0 false true) /\
  put_raw_ex (mkExc true false false) true (mkOut [] 1 false false) (mkRaw (-1) 25) = Terminated /\
  put_raw_ex (mkExc true false false) false (mkOut [] 1 false false) (mkRaw (-1) 25) = Returned (mkOut (codes "-") 0 false true) /\
  put_raw_ex (mkExc false false true) false (mkOut [] 4 false false) (mkRaw (-1) 25) = Terminated /\
  put_raw_ex (mkExc false true false) true (mkOut [] 2 false false) (mkRaw (-1) 25) = Returned (mkOut (codes "-1") 0 true true) /\
  put_raw_ex (mkExc false true false) true (mkOut [] 9 false true) (mkRaw (-1) 25) = Returned (mkOut [] 9 true true) /\
  put_raw_ex (mkExc false true false) false (mkOut [] 9 true false) (mkRaw (-1) 25) = Returned (mkOut [] 9 true false) /\
  get_raw int32 (mkIn (codes "-1/2") false false) (mkRaw 7 9) = (mkIn [] false true, mkRaw (-1) 2).
Proof. repeat split. Qed.
