(** Proofs of the statements in Props_Stream.v. *)

From Coq Require Import String ZArith List Bool Lia.
From Verif Require Import Machine Raw Stream Stream_spec Parse_spec.
From Verif Require Import Machine_proofs Stream_proofs.
Import ListNotations.
Open Scope Z_scope.

Lemma c47_round_trip : forall t v rest old,
  numeric t -> wf_raw t v -> no_digit_first rest ->
  exists e, get_raw t (mkIn (put_raw v ++ rest) false false) old = (mkIn rest false e, v).
Proof. intros t v rest old W A N. eexists. now apply round_trip. Qed.

Lemma c47_sequence_round_trip : forall t sep vs old,
  numeric t -> sep <> [] -> Forall blank sep -> Forall (wf_raw t) vs ->
  exists s, get_all t (length vs) (mkIn (put_all sep vs) false false) old = (s, vs) /\
    failbit s = false /\ Forall blank (unread s).
Proof. intros t sep vs old _. apply round_trip_all. Qed.

Lemma c47_written_form : forall v, exists n d,
  put_raw v = n ++ [47] ++ d /\
  numeral n (num v <? 0) (Z.abs (num v)) /\ numeral d (den v <? 0) (Z.abs (den v)) /\
  (forall s, numeral s (num v <? 0) (Z.abs (num v)) -> (length n <= length s)%nat) /\
  (forall s, numeral s (den v <? 0) (Z.abs (den v)) -> (length d <= length s)%nat).
Proof.
  intros v. exists (put_int (num v)), (put_int (den v)). repeat split; try apply put_int_numeral.
  - intros s H. apply (put_int_shortest _ s _ H). intros. now apply Z.ltb_lt.
  - intros s H. apply (put_int_shortest _ s _ H). intros. now apply Z.ltb_lt.
Qed.

Lemma c47_injective : forall t v w, numeric t -> wf_raw t v -> wf_raw t w -> put_raw v = put_raw w -> v = w.
Proof.
  intros t v w W A B E. pose proof (round_trip t v [] v A I) as H1.
  pose proof (round_trip t w [] v B I) as H2. rewrite <- E, H1 in H2. now inversion H2.
Qed.

Lemma c48_accepts : forall t text v rest old,
  numeric t -> fraction_text t text v rest ->
  get_raw t (mkIn text false false) old = (mkIn rest false (match rest with [] => true | _ => false end), v).
Proof. intros t text v rest old _. exact (get_raw_ok t text v rest old). Qed.

Lemma c48_only_accepts : forall t s old s' v,
  numeric t -> get_raw t s old = (s', v) -> failbit s' = false ->
  failbit s = false /\ eofbit s = false /\ fraction_text t (unread s) v (unread s').
Proof.
  intros t s old s' v W H F. destruct (get_raw_inv t s old s' v H F) as [A [B [C _]]]. auto.
Qed.

Lemma c48_fails_iff : forall t text old,
  numeric t ->
  failbit (fst (get_raw t (mkIn text false false) old)) = true <->
  ~ exists v rest, fraction_text t text v rest.
Proof.
  intros t text old W. destruct (get_raw t (mkIn text false false) old) as [s v] eqn:E. cbn [fst]. split.
  - intros F [w [rest H]]. rewrite (get_raw_ok t text w rest old H) in E. inversion E; subst. discriminate.
  - intros N. destruct (failbit s) eqn:F; auto. exfalso. apply N. exists v, (unread s).
    now apply (get_raw_inv t _ old s v E F).
Qed.

Lemma c48_unambiguous : forall t text v rest v' rest',
  numeric t -> fraction_text t text v rest -> fraction_text t text v' rest' -> v = v' /\ rest = rest'.
Proof.
  intros t text v rest v' rest' W A B. pose proof (get_raw_ok t text v rest v A) as H1.
  pose proof (get_raw_ok t text v' rest' v B) as H2. rewrite H1 in H2. now inversion H2.
Qed.

Lemma c48_no_slash_overwrites : forall t b n z mid old,
  numeric t -> Forall blank b -> reads_as t n z -> no_digit_first mid -> ~ In 47 mid ->
  get_raw t (mkIn (b ++ n ++ mid) false false) old = (mkIn [] true true, mkRaw z (den old)).
Proof. intros t b n z mid old _. apply get_raw_no_slash. Qed.

Lemma c48_failure : forall t text old s v, numeric t ->
  get_raw t (mkIn text false false) old = (s, v) -> failbit s = true -> failed_read t old text v (unread s).
Proof. intros t text old s v N H F. exact (proj1 (get_raw_fail t text old s v N H F)). Qed.

Lemma c48_eof : forall t text old s v, numeric t ->
  get_raw t (mkIn text false false) old = (s, v) -> (eofbit s = true <-> unread s = []).
Proof.
  intros t text old s v N H. assert (E : eofbit s = at_end (unread s)).
  { destruct (failbit s) eqn:F; [exact (proj2 (get_raw_fail t text old s v N H F))|].
    destruct (get_raw_inv t _ old s v H F) as [_ [_ [_ E]]]. exact E. }
  rewrite E. destruct (unread s); cbn; split; congruence.
Qed.

Lemma c48_bad_stream : forall t s old, failbit s = true \/ eofbit s = true ->
  get_raw t s old = (mkIn (unread s) true (eofbit s), old).
Proof. exact get_raw_bad. Qed.

