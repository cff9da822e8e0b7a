(** Property theorems: scanning and converting floating-point strings.

    Each is closed by the lemma of the same name in Parse_claims.v. *)

From Coq Require Import String ZArith QArith Qpower List Bool Lia.
From Verif Require Import Machine Raw Ops Spec Fraction Fmath Parse Parse_spec.
From Verif Require Import Machine_proofs Value_proofs Ops_proofs Parse_proofs Parse2_proofs.
Import ListNotations.
Open Scope Z_scope.
From Verif Require Import Parse_claims.

(** C33 *)
Theorem C33_valid_iff_digit_sequence : forall base s,
  base = 10 \/ base = 16 ->
  (is_valid_digit_sequence s base = true <-> digit_seq base s).
Proof. exact c33_valid_iff_digit_sequence. Qed.
Print Assumptions C33_valid_iff_digit_sequence.

(** C33: for signed types the result is the positional value, and the only
    undefined behaviour is overflow of the power of the base past the last digit. *)
Theorem C33_signed_value : forall t base s,
  wf_rep t -> rsigned t = true -> base = 10 \/ base = 16 -> digit_seq base s ->
  (base ^ num_digits s <= rmax t -> digit_sequence_to_int t s base = Ok (seq_value base s)) /\
  (rmax t < base ^ num_digits s -> digit_sequence_to_int t s base = UB Overflow).
Proof. exact c33_signed_value. Qed.
Print Assumptions C33_signed_value.

Theorem C33_unsigned_value : forall t base s,
  wf_rep t -> rsigned t = false -> base = 10 \/ base = 16 -> digit_seq base s ->
  digit_sequence_to_int t s base = Ok (seq_value base s mod 2 ^ rbits t).
Proof. exact c33_unsigned_value. Qed.
Print Assumptions C33_unsigned_value.

Theorem C33_value_bounds : forall base s,
  base = 10 \/ base = 16 -> digit_seq base s -> 0 <= seq_value base s < base ^ num_digits s.
Proof. exact c33_value_bounds. Qed.
Print Assumptions C33_value_bounds.

Example C33_nonvacuous :
  is_valid_digit_sequence (codes "1'234'5") 10 = true /\ is_valid_digit_sequence (codes "12''3") 10 = false /\
  is_valid_digit_sequence (codes "aF9") 16 = true /\ is_valid_digit_sequence (codes "aF9") 10 = false /\
  digit_sequence_to_int int32 (codes "12'345") 10 = Ok 12345 /\ seq_value 10 (codes "12'345") = 12345 /\
  digit_sequence_to_int int32 (codes "fF'0a") 16 = Ok 65290 /\ num_digits (codes "fF'0a") = 4.
Proof. repeat split; vm_compute; reflexivity. Qed.

(** C34: the scanner reads within the string, for every string. *)
Theorem C34_never_undefined : forall s,
  Z.of_nat (length s) < 2 ^ 63 -> exists x, scan_floating_point_string s = Ok x.
Proof. exact c34_never_undefined. Qed.
Print Assumptions C34_never_undefined.

(** C34: what it accepts is a literal, and the parts are the literal's. *)
Theorem C34_accepts_literals_only : forall s r,
  Z.of_nat (length s) < 2 ^ 63 -> scan_floating_point_string s = Ok (Some r) ->
  exists l, valid_literal l /\ s = spell l /\ parts_of r l.
Proof. exact c34_accepts_literals_only. Qed.
Print Assumptions C34_accepts_literals_only.

(** C34: it accepts every literal. *)
Theorem C34_accepts_every_literal : forall l,
  Z.of_nat (length (spell l)) < 2 ^ 63 -> valid_literal l ->
  exists r, scan_floating_point_string (spell l) = Ok (Some r) /\ parts_of r l.
Proof. exact c34_accepts_every_literal. Qed.
Print Assumptions C34_accepts_every_literal.

(** C34: a string spells at most one literal, up to an explicit plus sign and
    the letter case of prefix and exponent. *)
Theorem C34_unambiguous : forall l1 l2,
  valid_literal l1 -> valid_literal l2 -> spell l1 = spell l2 ->
  l_base l1 = l_base l2 /\ l_whole l1 = l_whole l2 /\ l_fraction l1 = l_fraction l2 /\ l_scale l1 = l_scale l2.
Proof. exact c34_unambiguous. Qed.
Print Assumptions C34_unambiguous.

(** C34: the precision is the number of fractional digits. *)
Theorem C34_precision : forall s r,
  Z.of_nat (length s) <= 2147483647 -> scan_floating_point_string s = Ok (Some r) ->
  sc_precision r = num_digits (sc_fractional r).
Proof. exact c34_precision. Qed.
Print Assumptions C34_precision.

Example C34_nonvacuous :
  scan_floating_point_string (codes "0X1'F.8p-1'0") =
    Ok (Some (mkScan 16 (codes "1'F") (codes "8") 1 true (codes "1'0"))) /\
  scan_floating_point_string (codes ".5E+3") = Ok (Some (mkScan 10 [] (codes "5") 1 false (codes "3"))) /\
  scan_floating_point_string (codes "0x1.8") = Ok None /\ scan_floating_point_string (codes "1.5e+") = Ok None /\
  valid_literal (mkLit [48; 88] (codes "1'F") (codes "8") (Some (mkExp 112 (Some 45) (codes "1'0")))).
Proof.
  split; [vm_compute; reflexivity|]. split; [vm_compute; reflexivity|]. split; [vm_compute; reflexivity|].
  split; [vm_compute; reflexivity|].
  unfold valid_literal, empty_or, valid_exponent. cbn [l_prefix l_whole l_fraction l_exponent x_letter x_sign x_digits].
  split; [now right; right|].
  split; [right; apply (valid_digits_iff 16); [now right|reflexivity]|].
  split; [right; apply (valid_digits_iff 16); [now right|reflexivity]|].
  split; [left; discriminate|].
  split; [now left|]. split; [now right; right|].
  apply (valid_digits_iff 10); [now left|reflexivity].
Qed.

(** C35: C++ literals with a point are accepted. *)
Theorem C35_accepts_with_point_partial : forall s,
  Z.of_nat (length s) < 2 ^ 63 -> (exists l, valid_literal l /\ s = spell l) ->
  exists r, scan_floating_point_string s = Ok (Some r).
Proof. exact c35_accepts_with_point_partial. Qed.
Print Assumptions C35_accepts_with_point_partial.

(** C35: every C++ literal without a point is rejected. *)
Theorem C35_pointless_rejected : forall l,
  Z.of_nat (length (spell_pointless l)) < 2 ^ 63 -> valid_pointless l ->
  scan_floating_point_string (spell_pointless l) = Ok None.
Proof. exact c35_pointless_rejected. Qed.
Print Assumptions C35_pointless_rejected.

Theorem C35_all_literals_refuted : exists s,
  cpp_floating_literal s /\ scan_floating_point_string s = Ok None.
Proof. exact c35_all_literals_refuted. Qed.
Print Assumptions C35_all_literals_refuted.

Example C35_nonvacuous :
  scan_floating_point_string (codes "1.e5") = Ok (Some (mkScan 10 (codes "1") [] 0 false (codes "5"))) /\
  scan_floating_point_string (codes "1e5") = Ok None /\ scan_floating_point_string (codes "0x1p3") = Ok None.
Proof. repeat split; vm_compute; reflexivity. Qed.

(** C36 *)
Theorem C36_conversion_exact : forall o t l r,
  wf_rep t -> rsigned t = true -> valid_literal l -> Z.of_nat (length (spell l)) <= 2147483647 ->
  string_to_fraction (denote o) t (spell l) = Ok r ->
  exists v, value r = Some v /\ (v == literal_value l)%Q.
Proof. exact c36_conversion_exact. Qed.
Print Assumptions C36_conversion_exact.

Theorem C36_rejected_is_undefined : forall o t s,
  Z.of_nat (length s) < 2 ^ 63 -> ~ (exists l, valid_literal l /\ s = spell l) ->
  string_to_fraction (denote o) t s = Ok (mkRaw 0 0).
Proof. exact c36_rejected_is_undefined. Qed.
Print Assumptions C36_rejected_is_undefined.

(** C36: the value does not depend on how the string is read as a literal. *)
Theorem C36_value_unambiguous : forall l1 l2,
  valid_literal l1 -> valid_literal l2 -> spell l1 = spell l2 -> literal_value l1 = literal_value l2.
Proof. exact c36_value_unambiguous. Qed.
Print Assumptions C36_value_unambiguous.

Example C36_nonvacuous :
  string_to_fraction (denote defaults) int64 (codes "12.75") = Ok (mkRaw 51 4) /\
  string_to_fraction (denote defaults) int64 (codes "1'0.5e-3") = Ok (mkRaw 21 2000) /\
  string_to_fraction (denote defaults) int64 (codes "0x1.8p4") = Ok (mkRaw 24 1) /\
  string_to_fraction (denote Safe) int64 (codes "0.50") = Ok (mkRaw 50 100) /\
  string_to_fraction (denote defaults) int64 (codes "1..2") = Ok (mkRaw 0 0).
Proof. repeat split; vm_compute; reflexivity. Qed.

(** C37: digits convert whenever the next power of the base fits. *)
Theorem C37_digits_total_partial : forall t base s,
  wf_rep t -> base = 10 \/ base = 16 -> digit_seq base s -> base ^ num_digits s <= rmax t ->
  digit_sequence_to_int t s base = Ok (seq_value base s).
Proof. exact c37_digits_total_partial. Qed.
Print Assumptions C37_digits_total_partial.

(** C37: whole literals convert, under every policy, whenever the power of the
    base with as many digits, times the scale, fits: 18 digits for a decimal
    literal without exponent in a 64-bit type. *)
Theorem C37_literal_total : forall o t l,
  wf_rep t -> valid_literal l ->
  Z.of_nat (length (spell l)) <= 2147483647 -> exponent_digits l <= 9 ->
  l_base l ^ (num_digits (l_whole l) + num_digits (l_fraction l))
    * (if is_hex l then 2 else 10) ^ Z.abs (l_scale l) <= rmax t ->
  exists r, string_to_fraction (denote o) t (spell l) = Ok r.
Proof. exact c37_literal_total. Qed.
Print Assumptions C37_literal_total.

(** C37: 2147483647 is an int, but converting its digits overflows. *)
Theorem C37_representable_refuted : exists s,
  digit_seq 10 s /\ in_rep int32 (seq_value 10 s) = true /\
  digit_sequence_to_int int32 s 10 = UB Overflow.
Proof. exact c37_representable_refuted. Qed.
Print Assumptions C37_representable_refuted.

Example C37_nonvacuous :
  10 ^ (9 + 9) * 10 ^ 0 <= rmax int64 /\
  string_to_fraction (denote Safe) int64 (codes "999999999.999999999") =
    Ok (mkRaw 999999999999999999 1000000000) /\
  digit_sequence_to_int int32 (codes "999999999") 10 = Ok 999999999 /\
  string_to_fraction (denote defaults) int64 (codes "9223372036854775807.0") = UB Overflow.
Proof. repeat split; vm_compute; try reflexivity; discriminate. Qed.
