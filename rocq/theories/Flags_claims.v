(** Proofs of the statements in Props_Flags.v. *)

From Coq Require Import ZArith String Ascii List Bool Lia.
From Verif Require Import Machine Raw Stream Stream_spec Format Format_spec Flags Flags_spec.
From Verif Require Import Machine_proofs Stream_proofs Format_proofs Flags_proofs.
Import ListNotations.
Open Scope Z_scope.

Lemma c106_accepts : forall t fl text v rest old, numeric t -> fraction_text_flags t fl text v rest ->
  exists e, get_raw_flags t fl (mkIn text false false) old = (mkIn rest false e, v).
Proof. exact get_raw_flags_accepts. Qed.

Lemma c106_round_trip : forall t fo fi f v rest old, numeric t -> wf_raw t v -> as_itself (written_base fo) v ->
  readable t (with_base (written_base fo) f) (num v) -> ended rest ->
  (fl_skipws fi = false -> flush t (with_base (written_base fo) f) (num v)) ->
  text_base fi = Some (written_base fo) \/
  text_base fi = None /\ (written_base fo = Dec \/ f_showbase f = true) /\ announced_safely t (with_base (written_base fo) f) (num v) ->
  exists e, get_raw_flags t fi (mkIn (put_raw_flags t fo f v ++ rest) false false) old = (mkIn rest false e, v).
Proof. intros t fo fi f v rest old. rewrite written_base_out, text_base_in. apply flags_round_trip. Qed.

Lemma c106_noskipws : forall t fl c r old, numeric t -> fl_skipws fl = false -> blank c ->
  get_raw_flags t fl (mkIn (c :: r) false false) old = (mkIn (c :: r) true false, mkRaw 0 (den old)) /\
  get_raw_flags t fl (mkIn [] false false) old = (mkIn [] true true, mkRaw 0 (den old)) /\
  (forall n z mid, reads_flags t fl n z (mid ++ [47]) -> ~ In 47 mid ->
     get_raw_flags t fl (mkIn (n ++ mid ++ 47 :: c :: r) false false) old = (mkIn (c :: r) true false, mkRaw z 0)).
Proof.
  intros t fl c r old W S B. split; [now apply noskipws_blank|]. split; [now apply noskipws_empty|].
  intros n z mid N NS. now apply noskipws_blank_denominator.
Qed.

Lemma c106_zeros_refuted : exists f v w e, f_fill f = 48 /\ f_adjust f = Internal /\ wf_raw int32 v /\
  get_raw_flags int32 (mkFlags false false false true)
    (mkIn (put_raw_flags int32 (mkFlags false true false true) f v) false false) (mkRaw 0 0) = (mkIn [] false e, w) /\ w <> v.
Proof.
  exists (mkFormat Dec false false false 4 48 Internal), (mkRaw 17 3), (mkRaw 15 3), true.
  split; [reflexivity|]. split; [reflexivity|]. split; [split; reflexivity|]. split; [vm_compute; reflexivity|discriminate].
Qed.

Lemma c106_no_showbase_refuted : exists f v w e, f_showbase f = false /\ wf_raw int32 v /\
  get_raw_flags int32 (mkFlags false false false true)
    (mkIn (put_raw_flags int32 (mkFlags false false true true) f v) false false) (mkRaw 0 0) = (mkIn [] false e, w) /\ w <> v.
Proof.
  exists default_format, (mkRaw 17 3), (mkRaw 11 3), true.
  split; [reflexivity|]. split; [split; reflexivity|]. split; [vm_compute; reflexivity|discriminate].
Qed.

Lemma c106_one_base : forall t fl s old f v b, text_base fl = Some b ->
  put_raw_flags t fl f v = fst (put_raw_formatted t (with_base b f) v) /\
  (fl_skipws fl = true -> get_raw_flags t fl s old = get_raw_in b t s old).
Proof.
  intros t fl s old f v b B. rewrite text_base_in in B. split; [|intros S; now apply flags_in].
  unfold put_raw_flags. replace (out_base fl) with b; [reflexivity|].
  destruct fl as [[] [] [] s']; cbn in *; congruence.
Qed.

