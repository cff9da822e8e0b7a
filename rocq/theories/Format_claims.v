(** Proofs of the statements in Props_Format.v. *)

From Coq Require Import String Ascii ZArith List Bool Lia.
From Verif Require Import Machine Raw Stream Stream_spec Format Format_spec.
From Verif Require Import Machine_proofs Stream_proofs Format_proofs.
Import ListNotations.
Open Scope Z_scope.

Lemma c94_accepts : forall b t text v rest old, numeric t -> fraction_text_in b t text v rest ->
  exists e, get_raw_in b t (mkIn text false false) old = (mkIn rest false e, v).
Proof.
  exact get_raw_in_accepts.
Qed.

Lemma c94_round_trip : forall t f v rest old, numeric t -> wf_raw t v -> as_itself (f_base f) v ->
  readable t f (num v) -> stops (f_base f) rest ->
  exists e, get_raw_in (f_base f) t (mkIn (fst (put_raw_formatted t f v) ++ rest) false false) old = (mkIn rest false e, v).
Proof.
  exact formatted_round_trip.
Qed.

Lemma c94_negative_refuted : forall t f v rest old, numeric t -> rsigned t = true -> f_base f <> Dec -> wf_raw t v ->
  readable t f (num v) -> stops (f_base f) rest -> num v < 0 \/ den v < 0 ->
  exists s', get_raw_in (f_base f) t (mkIn (fst (put_raw_formatted t f v) ++ rest) false false) old =
    (s', if num v <? 0 then mkRaw (rmax t) (den old) else mkRaw (num v) (rmax t)) /\ failbit s' = true.
Proof.
  exact formatted_negative.
Qed.

Lemma c94_width : forall t f v,
  Z.of_nat (length (fst (put_raw_formatted t f v))) =
  Z.max (f_width f) (Z.of_nat (length (put_int_formatted t (no_width f) (num v)))) + 1 +
  Z.of_nat (length (put_int_formatted t (no_width f) (den v))) /\
  f_width (snd (put_raw_formatted t f v)) = 0.
Proof.
  intros t f v. split; [apply formatted_length|]. rewrite put_raw_shape. reflexivity.
Qed.

Lemma c94_setw_refuted : forall t f v,
  Z.of_nat (length (put_int_formatted t (no_width f) (num v))) < f_width f ->
  Z.of_nat (length (fst (put_raw_formatted t f v))) <>
  Z.max (f_width f) (Z.of_nat (length (fst (put_raw_formatted t (no_width f) v)))).
Proof.
  intros t f v H. rewrite !formatted_length. change (no_width (no_width f)) with (no_width f). cbn [f_width no_width].
  lia.
Qed.

Lemma c94_fill_refuted : exists f v w, f_base f = Dec /\ f_fill f = 48 /\ f_adjust f = Right /\ wf_raw int32 v /\
  get_raw_in Dec int32 (mkIn (fst (put_raw_formatted int32 f v)) false false) (mkRaw 0 0) = (mkIn [] false true, w) /\ w <> v.
Proof.
  exists (mkFormat Dec false false false 4 48 Right), (mkRaw (-1) 2), (mkRaw 0 2).
  repeat split; try reflexivity. discriminate.
Qed.

Lemma c94_other_base_refuted : exists f v w, f_base f = Hex /\ wf_raw int32 v /\
  get_raw_in Dec int32 (mkIn (fst (put_raw_formatted int32 f v)) false false) (mkRaw 0 0) = (mkIn [] false true, w) /\ w <> v.
Proof.
  exists (mkFormat Hex false false false 0 32 Right), (mkRaw 16 3), (mkRaw 10 3).
  repeat split; try reflexivity. discriminate.
Qed.

Lemma c94_default : forall t v s old,
  put_raw_formatted t default_format v = (put_raw v, default_format) /\ get_raw_in Dec t s old = get_raw t s old.
Proof.
  intros t v s old. split; [apply default_put|apply default_get].
Qed.

