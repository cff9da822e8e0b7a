(** Property theorems: format flags.

    Each is closed by the lemma of the same name in Format_claims.v. *)

From Coq Require Import String Ascii ZArith List Bool Lia.
From Verif Require Import Machine Raw Stream Stream_spec Format Format_spec.
From Verif Require Import Machine_proofs Stream_proofs Format_proofs.
Import ListNotations.
Open Scope Z_scope.
From Verif Require Import Format_claims.

(** C94: text in octal, decimal or hexadecimal is read back: blanks, a numeral of
    that base (hexadecimal also after 0x), anything without a slash, a slash,
    blanks and a numeral. *)
Theorem C94_accepts : forall b t text v rest old, numeric t -> fraction_text_in b t text v rest ->
  exists e, get_raw_in b t (mkIn text false false) old = (mkIn rest false e, v).
Proof. exact c94_accepts. Qed.
Print Assumptions C94_accepts.

(** C94: what is written with any combination of base, showbase, showpos,
    uppercase and width is read back identically with the same base: in decimal
    any fraction, in octal and hexadecimal those without a negative part.  The
    padding must be blanks outside or zeros inside the number, or not needed. *)
Theorem C94_round_trip : forall t f v rest old, numeric t -> wf_raw t v -> as_itself (f_base f) v ->
  readable t f (num v) -> stops (f_base f) rest ->
  exists e, get_raw_in (f_base f) t (mkIn (fst (put_raw_formatted t f v) ++ rest) false false) old = (mkIn rest false e, v).
Proof. exact c94_round_trip. Qed.
Print Assumptions C94_round_trip.

Example c94_round_trip_cases :
  let f := mkFormat Hex true false false 8 48 Internal in
  let g := mkFormat Dec false true false 6 32 Left in
  let code := fun s => map (fun c => Z.of_N (N_of_ascii c)) (list_ascii_of_string s) in
  wf_raw int32 (mkRaw 48879 10) /\ as_itself Hex (mkRaw 48879 10) /\ readable int32 f 48879 /\ stops Hex [10] /\
  put_raw_formatted int32 f (mkRaw 48879 10) = (code "0x00beef/0xa"%string, no_width f) /\
  get_raw_in Hex int32 (mkIn (code "0x00beef/0xa"%string ++ [10]) false false) (mkRaw 0 0) = (mkIn [10] false false, mkRaw 48879 10) /\
  as_itself Dec (mkRaw (-7) 2) /\ readable int32 g (-7) /\
  fst (put_raw_formatted int32 g (mkRaw (-7) 2)) = code "-7    /+2"%string.
Proof.
  cbv zeta. split; [split; reflexivity|]. split; [right; cbn; lia|]. split; [right; left; auto|].
  split; [split; [intros d D; unfold digit_is in D; lia|lia]|]. split; [vm_compute; reflexivity|]. split; [vm_compute; reflexivity|].
  split; [now left|]. split; [left; split; [now left|discriminate]|vm_compute; reflexivity].
Qed.

(** C94 is false for negative parts in octal and hexadecimal: they are written as
    unsigned numbers, and reading such text back always fails. *)
Theorem C94_negative_refuted : forall t f v rest old, numeric t -> rsigned t = true -> f_base f <> Dec -> wf_raw t v ->
  readable t f (num v) -> stops (f_base f) rest -> num v < 0 \/ den v < 0 ->
  exists s', get_raw_in (f_base f) t (mkIn (fst (put_raw_formatted t f v) ++ rest) false false) old =
    (s', if num v <? 0 then mkRaw (rmax t) (den old) else mkRaw (num v) (rmax t)) /\ failbit s' = true.
Proof. exact c94_negative_refuted. Qed.
Print Assumptions C94_negative_refuted.

Example c94_negative_case :
  let f := mkFormat Hex false false false 0 32 Right in
  readable int32 f (-1) /\
  fst (put_raw_formatted int32 f (mkRaw (-1) 2)) = [102; 102; 102; 102; 102; 102; 102; 102; 47; 50].
Proof. cbv zeta. split; [right; right; vm_compute; discriminate|vm_compute; reflexivity]. Qed.

(** C94: std::setw applies to the numerator only; the width is zero afterwards. *)
Theorem C94_width : forall t f v,
  Z.of_nat (length (fst (put_raw_formatted t f v))) =
  Z.max (f_width f) (Z.of_nat (length (put_int_formatted t (no_width f) (num v)))) + 1 +
  Z.of_nat (length (put_int_formatted t (no_width f) (den v))) /\
  f_width (snd (put_raw_formatted t f v)) = 0.
Proof. exact c94_width. Qed.
Print Assumptions C94_width.

(** C94: so whenever the width exceeds the numerator, the fraction is not padded
    to the width as a whole. *)
Theorem C94_setw_refuted : forall t f v,
  Z.of_nat (length (put_int_formatted t (no_width f) (num v))) < f_width f ->
  Z.of_nat (length (fst (put_raw_formatted t f v))) <>
  Z.max (f_width f) (Z.of_nat (length (fst (put_raw_formatted t (no_width f) v)))).
Proof. exact c94_setw_refuted. Qed.
Print Assumptions C94_setw_refuted.

Example c94_setw_case :
  let f := mkFormat Dec false false false 6 32 Right in
  fst (put_raw_formatted int32 f (mkRaw 1 2)) = [32; 32; 32; 32; 32; 49; 47; 50] /\
  (Z.of_nat (length (put_int_formatted int32 (no_width f) 1)) < 6).
Proof. split; reflexivity. Qed.

(** C94: other padding, or another base, can read back as a different fraction
    without the stream failing. *)
Theorem C94_fill_refuted : exists f v w, f_base f = Dec /\ f_fill f = 48 /\ f_adjust f = Right /\ wf_raw int32 v /\
  get_raw_in Dec int32 (mkIn (fst (put_raw_formatted int32 f v)) false false) (mkRaw 0 0) = (mkIn [] false true, w) /\ w <> v.
Proof. exact c94_fill_refuted. Qed.
Print Assumptions C94_fill_refuted.

Theorem C94_other_base_refuted : exists f v w, f_base f = Hex /\ wf_raw int32 v /\
  get_raw_in Dec int32 (mkIn (fst (put_raw_formatted int32 f v)) false false) (mkRaw 0 0) = (mkIn [] false true, w) /\ w <> v.
Proof. exact c94_other_base_refuted. Qed.
Print Assumptions C94_other_base_refuted.

(** C94: with the default flags these are the operators of C47 and C48. *)
Theorem C94_default : forall t v s old,
  put_raw_formatted t default_format v = (put_raw v, default_format) /\ get_raw_in Dec t s old = get_raw t s old.
Proof. exact c94_default. Qed.
Print Assumptions C94_default.
