(** Proofs of the statements in Props_Except.v. *)

From Coq Require Import String ZArith List Bool Lia.
From Verif Require Import Machine Raw Stream Stream_spec Parse_spec Except Except_spec.
From Verif Require Import Machine_proofs Stream_proofs Except_proofs.
Import ListNotations.
Open Scope Z_scope.

Lemma c110_same : forall m t s old r,
  get_raw_ex m t s old = Returned r <-> get_raw t s old = r /\ quiet m (fst r).
Proof. exact get_raw_ex_same. Qed.

Lemma c110_returns_iff : forall m t text old, numeric t -> on_fail m = true ->
  ((exists r, get_raw_ex m t (mkIn text false false) old = Returned r) <->
   exists v rest, fraction_text t text v rest /\ (on_eof m = true -> rest <> [])).
Proof. exact get_raw_ex_returns. Qed.

Lemma c110_accepts : forall m t text v rest old, numeric t -> fraction_text t text v rest ->
  (on_eof m = true -> rest <> []) ->
  get_raw_ex m t (mkIn text false false) old =
    Returned (mkIn rest false (match rest with [] => true | _ => false end), v).
Proof. exact get_raw_ex_ok. Qed.

Lemma c110_malformed_refuted : forall m t text old, numeric t -> on_fail m = true ->
  (~ exists v rest, fraction_text t text v rest) ->
  get_raw_ex m t (mkIn text false false) old = Terminated.
Proof.
  intros m t text old W F N. destruct (ended_dec _ (get_raw_ex m t (mkIn text false false) old)) as [H|]; auto.
  exfalso. apply get_raw_ex_returns in H as [v [rest [T _]]]; auto. apply N. eauto.
Qed.

Lemma c110_eof_refuted : forall m t v old, numeric t -> wf_raw t v -> on_eof m = true ->
  get_raw_ex m t (mkIn (put_raw v) false false) old = Terminated.
Proof. exact get_raw_ex_eof. Qed.

Lemma c110_sequence : forall m t sep vs old, numeric t -> sep <> [] -> Forall blank sep -> Forall (wf_raw t) vs ->
  exists s, get_all_ex m t (length vs) (mkIn (put_all sep vs) false false) old = Returned (s, vs) /\
    failbit s = false /\ eofbit s = false /\ Forall blank (unread s).
Proof. exact get_all_ex_ok. Qed.

Lemma c110_one_more_refuted : forall m t sep vs old, numeric t -> sep <> [] -> Forall blank sep -> Forall (wf_raw t) vs ->
  on_fail m || on_eof m = true ->
  get_all_ex m t (S (length vs)) (mkIn (put_all sep vs) false false) old = Terminated.
Proof. exact get_all_ex_one_more. Qed.

Lemma c110_room : forall m q s v, ofailbit s = false -> obadbit s = false -> (length (put_raw v) <= room s)%nat ->
  put_raw_ex m q s v = Returned (mkOut (written s ++ put_raw v) (room s - length (put_raw v)) false false).
Proof. intros. apply put_raw_ex_room; auto. split; auto. Qed.

Lemma c110_prefix : forall m q s v s', ofailbit s = false -> obadbit s = false -> put_raw_ex m q s v = Returned s' ->
  written s' = written s ++ firstn (room s) (put_raw v) /\
  (obadbit s' = true <-> (room s < length (put_raw v))%nat).
Proof.
  intros m q s v s' A B H. apply put_raw_ex_wrote in H as [W [_ [K _]]]; [|split]; auto.
Qed.

Lemma c110_full_state : forall m q s v s', ofailbit s = false -> obadbit s = false -> put_raw_ex m q s v = Returned s' ->
  room s' = (room s - length (put_raw v))%nat /\
  (ofailbit s' = true <-> q = true /\ (room s <= length (put_int (num v)))%nat).
Proof. exact put_raw_ex_state. Qed.

Lemma c110_failed_stream : forall m q s v s', ofailbit s || obadbit s = true -> put_raw_ex m q s v = Returned s' ->
  s' = mkOut (written s) (room s) (ofailbit s || q) (obadbit s).
Proof. exact put_raw_ex_failed. Qed.

Lemma c110_full_refuted : forall m q s v, ofailbit s = false -> obadbit s = false -> on_bad m = true ->
  (room s < length (put_raw v))%nat -> put_raw_ex m q s v = Terminated.
Proof. intros. apply put_raw_ex_full; auto. split; auto. Qed.

Lemma c110_writing_returns : forall m q s v, on_fail m = false -> on_bad m = false ->
  exists s', put_raw_ex m q s v = Returned s'.
Proof. exact put_raw_ex_quiet. Qed.

Lemma c110_truncated_refuted : forall t v old, numeric t -> wf_raw t v -> 10 <= Z.abs (den v) ->
  get_raw t (mkIn (firstn (length (put_raw v) - 1) (put_raw v)) false false) old =
    (mkIn [] false true, mkRaw (num v) (Z.quot (den v) 10)).
Proof. exact truncated_reads. Qed.

