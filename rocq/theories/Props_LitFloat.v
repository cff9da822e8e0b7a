(** Property theorems: literals converted to floating point through a fraction.

    Each is closed by the lemma of the same name in LitFloat_claims.v. *)

From Coq Require Import String ZArith Reals QArith Qabs Qreduction Qreals List Bool Lia Lqa.
From Flocq Require Import Core.
From Flocq Require Import IEEE754.Binary IEEE754.Bits.
From Verif Require Import Machine Raw Ops Spec Fraction Float Float_spec Mixed_spec Parse Parse_spec Literals LitFloat_spec.
From Verif Require Import Machine_proofs Value_proofs Ops_proofs Algebra_proofs Cmp_proofs.
From Verif Require Import Parse_proofs Parse2_proofs Parse_claims Literals_claims Float_claims LitFloat_proofs.
Import ListNotations.
Open Scope Z_scope.
From Verif Require Import LitFloat_claims.

(** C99: under every policy, a literal whose digits and exponent make a number of at most
    2^24, 2^53 or 2^64 converts to the float, double or long double that rounding its exact
    value to nearest, ties to even, gives. *)
Theorem C99_literal_rounded : forall o t l,
  signed_rep t -> valid_literal l -> Z.of_nat (length (spell l)) <= 2147483647 -> exponent_digits l <= 9 ->
  literal_size l <= rmax t ->
  exists r, string_to_fraction (denote o) t (spell l) = Ok r /\
    (rmax t <= 2 ^ 127 -> literal_size l <= 2 ^ 24 ->
     exists x, to_float t r = Ok x /\ is_finite 24 128 x = true /\
       B2R 24 128 x = round radix2 (FLT_exp (-149) 24) ZnearestE (Q2R (literal_value l))) /\
    (rmax t <= 2 ^ 1023 -> literal_size l <= 2 ^ 53 ->
     exists x, to_double t r = Ok x /\ is_finite 53 1024 x = true /\
       B2R 53 1024 x = round radix2 (FLT_exp (-1074) 53) ZnearestE (Q2R (literal_value l))) /\
    (rmax t <= 2 ^ 16383 -> literal_size l <= 2 ^ 64 ->
     exists x, to_long_double t r = Ok x /\ is_finite 64 16384 x = true /\
       B2R 64 16384 x = round radix2 (FLT_exp (-16445) 64) ZnearestE (Q2R (literal_value l))).
Proof. exact c99_literal_rounded. Qed.
Print Assumptions C99_literal_rounded.

(** C99: the same in terms of rationals: no other number of the type is closer. *)
Theorem C99_literal_nearest : forall o t l,
  signed_rep t -> valid_literal l -> Z.of_nat (length (spell l)) <= 2147483647 -> exponent_digits l <= 9 ->
  literal_size l <= rmax t ->
  exists r, string_to_fraction (denote o) t (spell l) = Ok r /\
    (rmax t <= 2 ^ 127 -> literal_size l <= 2 ^ 24 ->
     exists x, to_float t r = Ok x /\ nearest (literal_value l) x) /\
    (rmax t <= 2 ^ 1023 -> literal_size l <= 2 ^ 53 ->
     exists x, to_double t r = Ok x /\ nearest (literal_value l) x) /\
    (rmax t <= 2 ^ 16383 -> literal_size l <= 2 ^ 64 ->
     exists x, to_long_double t r = Ok x /\ nearest (literal_value l) x).
Proof. exact c99_literal_nearest. Qed.
Print Assumptions C99_literal_nearest.

Example C99_literal_rounded_case :
  (* "0.1" *)
  let l := mkLit [] [48] [49] None in
  signed_rep int64 /\ valid_literal l /\ exponent_digits l = 0 /\ literal_size l = 100 /\
  string_to_fraction (denote Safe) int64 (spell l) = Ok (mkRaw 1 10) /\
  match to_double int64 (mkRaw 1 10) with Ok x => bits_of_b64 x = 0x3FB999999999999A | UB _ => False end.
Proof.
  cbv zeta. split; [split; [unfold wf_rep; cbn; lia|reflexivity]|].
  split; [|repeat split; vm_compute; reflexivity].
  assert (G : forall c, 48 <= c <= 57 -> digit_seq 10 [c]).
  { intros c H. apply ds_one. exists (c - 48). unfold digit_value.
    destruct (48 <=? c) eqn:A, (c <=? 57) eqn:B; try lia. cbn. split; [reflexivity|lia]. }
  split; [now left|]. split; [right; apply G; lia|]. split; [right; apply G; lia|].
  split; [left; discriminate|reflexivity].
Qed.

(** C99: a decimal literal with the suffix _dec of at most fifteen digits, those of the value
    of the exponent counted in, gives by to_double what the compiler gives without the suffix. *)
Theorem C99_dec_rounded : forall l,
  valid_literal l -> Z.of_nat (length (spell l)) <= 2147483647 -> exponent_digits l <= 9 ->
  is_hex l = false -> num_digits (l_whole l) + num_digits (l_fraction l) + Z.abs (l_scale l) <= 15 ->
  exists r x, literal_dec (spell l) = Ok (Some r) /\ to_double int64 r = Ok x /\ is_finite 53 1024 x = true /\
    B2R 53 1024 x = round radix2 (FLT_exp (-1074) 53) ZnearestE (Q2R (literal_value l)).
Proof. exact c99_dec_rounded. Qed.
Print Assumptions C99_dec_rounded.

Example C99_dec_rounded_case :
  (* "12.75e-3" *)
  let l := mkLit [] (codes "12") (codes "75") (Some (mkExp 101 (Some 45) (codes "3"))) in
  spell l = codes "12.75e-3" /\ is_hex l = false /\ exponent_digits l = 1 /\
  num_digits (l_whole l) + num_digits (l_fraction l) + Z.abs (l_scale l) = 7 /\
  literal_dec (spell l) = Ok (Some (mkRaw 51 4000)).
Proof. repeat split; vm_compute; reflexivity. Qed.

(** C99: however long the literal, if the suffix _dec converts it at all, to_double is within
    four units of 2^-53 relative to the exact value. *)
Theorem C99_dec_error : forall l r,
  valid_literal l -> Z.of_nat (length (spell l)) <= 2147483647 -> literal_dec (spell l) = Ok (Some r) ->
  exists x qx, to_double int64 r = Ok x /\ float_value x = Some qx /\
    (Qabs (qx - literal_value l) <= 4 * (2 # 1) ^ (-53) * Qabs (literal_value l))%Q.
Proof. exact c99_dec_error. Qed.
Print Assumptions C99_dec_error.

Example C99_dec_error_case :
  (* "0.3333333333333333e-1", fifteen significant digits past two zeros *)
  literal_dec (codes "0.3333333333333333e-1") = Ok (Some (mkRaw 3333333333333333 100000000000000000)).
Proof. vm_compute. reflexivity. Qed.

(** C99 is false for longer literals: 1.0000000000000003_dec converts, but to_double gives
    a double further from the literal than its neighbour. *)
Theorem C99_long_refuted : exists l r x y qx qy,
  valid_literal l /\ spell l = codes "1.0000000000000003" /\
  literal_dec (spell l) = Ok (Some r) /\ to_double int64 r = Ok x /\
  float_value x = Some qx /\ float_value (y : binary64) = Some qy /\
  (Qabs (qy - literal_value l) < Qabs (qx - literal_value l))%Q.
Proof. exact c99_long_refuted. Qed.
Print Assumptions C99_long_refuted.
