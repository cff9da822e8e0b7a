(** Property theorems: streams with any basefield and without skipws.

    Each is closed by the lemma of the same name in Flags_claims.v. *)

From Coq Require Import ZArith String Ascii List Bool Lia.
From Verif Require Import Machine Raw Stream Stream_spec Format Format_spec Flags Flags_spec.
From Verif Require Import Machine_proofs Stream_proofs Format_proofs Flags_proofs.
Import ListNotations.
Open Scope Z_scope.
From Verif Require Import Flags_claims.

(** C106: whatever bits of the basefield are set, and with skipws or without, a
    fraction is read from every text made of a numerator, anything without a slash, a
    slash and a denominator, both in the base of the flags; if they set no base, each
    of the two may announce its own.  Blanks in front are accepted only with skipws. *)
Theorem C106_accepts : forall t fl text v rest old, numeric t -> fraction_text_flags t fl text v rest ->
  exists e, get_raw_flags t fl (mkIn text false false) old = (mkIn rest false e, v).
Proof. exact c106_accepts. Qed.
Print Assumptions C106_accepts.

(** C106: what is written under any flags is read back identically by a stream of the
    same base, and by one without a base if it was written in decimal or with showbase;
    without skipws too, if there are no blanks in front.  Zeros must not pad a decimal
    number for a reader without a base. *)
Theorem C106_round_trip : forall t fo fi f v rest old, numeric t -> wf_raw t v -> as_itself (written_base fo) v ->
  readable t (with_base (written_base fo) f) (num v) -> ended rest ->
  (fl_skipws fi = false -> flush t (with_base (written_base fo) f) (num v)) ->
  text_base fi = Some (written_base fo) \/
  text_base fi = None /\ (written_base fo = Dec \/ f_showbase f = true) /\ announced_safely t (with_base (written_base fo) f) (num v) ->
  exists e, get_raw_flags t fi (mkIn (put_raw_flags t fo f v ++ rest) false false) old = (mkIn rest false e, v).
Proof. exact c106_round_trip. Qed.
Print Assumptions C106_round_trip.

Example c106_round_trip_cases :
  let code := fun s => map (fun c => Z.of_N (N_of_ascii c)) (list_ascii_of_string s) in
  let oct := mkFlags true false false true in
  let hex := mkFlags false false true true in
  let both := mkFlags true true false true in
  let none := mkFlags false false false false in
  let f := mkFormat Dec true false false 6 32 Left in
  put_raw_flags int32 oct f (mkRaw 15 8) = code "017   /010"%string /\
  put_raw_flags int32 hex f (mkRaw 15 0) = code "0xf   /0"%string /\
  put_raw_flags int32 both f (mkRaw (-15) 8) = code "-15   /8"%string /\
  text_base none = None /\ flush int32 (with_base Oct f) 15 /\ announced_safely int32 (with_base Oct f) 15 /\
  readable int32 (with_base Oct f) 15 /\ as_itself Oct (mkRaw 15 8) /\
  get_raw_flags int32 none (mkIn (code "017   /010"%string) false false) (mkRaw 0 0) = (mkIn [] false true, mkRaw 15 8) /\
  get_raw_flags int32 none (mkIn (code "0xf   /0"%string) false false) (mkRaw 0 0) = (mkIn [] false true, mkRaw 15 0) /\
  get_raw_flags int32 none (mkIn (code "-15   /8"%string) false false) (mkRaw 0 0) = (mkIn [] false true, mkRaw (-15) 8).
Proof.
  cbn zeta. repeat (split; [vm_compute; reflexivity|]).
  split; [left; discriminate|]. split; [left; discriminate|]. split; [left; split; [now left|discriminate]|].
  split; [right; cbn; lia|]. repeat split; vm_compute; reflexivity.
Qed.

(** C106: without skipws a blank in front of either number, and an empty stream, make
    the reading fail; the number is then 0, as for any text that is not a number, and a
    denominator that was not reached keeps its value. *)
Theorem C106_noskipws : forall t fl c r old, numeric t -> fl_skipws fl = false -> blank c ->
  get_raw_flags t fl (mkIn (c :: r) false false) old = (mkIn (c :: r) true false, mkRaw 0 (den old)) /\
  get_raw_flags t fl (mkIn [] false false) old = (mkIn [] true true, mkRaw 0 (den old)) /\
  (forall n z mid, reads_flags t fl n z (mid ++ [47]) -> ~ In 47 mid ->
     get_raw_flags t fl (mkIn (n ++ mid ++ 47 :: c :: r) false false) old = (mkIn (c :: r) true false, mkRaw z 0)).
Proof. exact c106_noskipws. Qed.
Print Assumptions C106_noskipws.

Example c106_noskipws_case :
  let fl := mkFlags false true false false in
  reads_flags int32 fl [49] 1 ([] ++ [47]) /\ blank 32 /\
  get_raw_flags int32 fl (mkIn [49; 47; 32; 50] false false) (mkRaw 7 7) = (mkIn [32; 50] true false, mkRaw 1 0).
Proof.
  cbn zeta. split; [|split; [now left|vm_compute; reflexivity]]. exists Dec. split; [|split; [apply stops_slash|reflexivity]].
  exists false, 1. split; [|cbn; split; [reflexivity|]; split; vm_compute; discriminate].
  exists [], [], [49]. split; [reflexivity|]. split; [auto|]. split; [auto|]. apply spells_one; [left; lia|cbn; lia].
Qed.

(** C106: a decimal number padded with zeros is read wrongly by a stream without a
    base, which takes it for octal; so is what was written in octal or hexadecimal
    without showbase. *)
Theorem C106_zeros_refuted : exists f v w e, f_fill f = 48 /\ f_adjust f = Internal /\ wf_raw int32 v /\
  get_raw_flags int32 (mkFlags false false false true)
    (mkIn (put_raw_flags int32 (mkFlags false true false true) f v) false false) (mkRaw 0 0) = (mkIn [] false e, w) /\ w <> v.
Proof. exact c106_zeros_refuted. Qed.
Print Assumptions C106_zeros_refuted.

Theorem C106_no_showbase_refuted : exists f v w e, f_showbase f = false /\ wf_raw int32 v /\
  get_raw_flags int32 (mkFlags false false false true)
    (mkIn (put_raw_flags int32 (mkFlags false false true true) f v) false false) (mkRaw 0 0) = (mkIn [] false e, w) /\ w <> v.
Proof. exact c106_no_showbase_refuted. Qed.
Print Assumptions C106_no_showbase_refuted.

(** C106: with skipws and a base these are the operators of C94. *)
Theorem C106_one_base : forall t fl s old f v b, text_base fl = Some b ->
  put_raw_flags t fl f v = fst (put_raw_formatted t (with_base b f) v) /\
  (fl_skipws fl = true -> get_raw_flags t fl s old = get_raw_in b t s old).
Proof. exact c106_one_base. Qed.
Print Assumptions C106_one_base.
