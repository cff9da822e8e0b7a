(** Property theorems: computing with floating-point numbers through fractions.

    Each is closed by the lemma of the same name in Dyadic_claims.v. *)

From Coq Require Import ZArith QArith Qabs Qreals Reals List Bool Lia Lra.
From Flocq Require Import Core.
From Flocq Require Import IEEE754.BinarySingleNaN.
From Flocq Require Import IEEE754.Binary IEEE754.Bits.
From Verif Require Import Machine Raw Ops Spec Fraction Fraction_spec Float Float_spec Mixed_spec Sums Sums_spec LitFloat_spec Dyadic_spec.
From Verif Require Import Fmath Program Program_spec.
From Verif Require Import Float2_proofs Dyadic_proofs Fraction_claims Float_claims Program_claims Defined_proofs.
Import ListNotations.
Open Scope Z_scope.
From Verif Require Import Dyadic_claims.

(** C102: a fraction whose value is an integer over a power of two converts to the
    correctly rounded floating-point number, whatever the size of its parts. *)
Theorem C102_dyadic_rounded : forall t v q,
  wf_rep t -> wf_raw t v -> Z.abs (num v) <= rmax t -> Z.abs (den v) <= rmax t -> value v = Some q -> dyadic q ->
  (rmax t <= 2 ^ 126 -> exists x, to_float t v = Ok x /\ is_finite 24 128 x = true /\
     B2R 24 128 x = round radix2 (FLT_exp (-149) 24) ZnearestE (Q2R q)) /\
  (rmax t <= 2 ^ 1022 -> exists x, to_double t v = Ok x /\ is_finite 53 1024 x = true /\
     B2R 53 1024 x = round radix2 (FLT_exp (-1074) 53) ZnearestE (Q2R q)) /\
  (rmax t <= 2 ^ 16382 -> exists x, to_long_double t v = Ok x /\ is_finite 64 16384 x = true /\
     B2R 64 16384 x = round radix2 (FLT_exp (-16445) 64) ZnearestE (Q2R q)).
Proof. exact c102_dyadic_rounded. Qed.
Print Assumptions C102_dyadic_rounded.

(** C102: so an expression of any size that adds, subtracts and multiplies fractions made
    from floating-point numbers, and integers, converts to a nearest double of its exact
    value: it is rounded once, at the end. *)
Theorem C102_polynomials : forall o t e q r,
  signed_rep t -> 54 <= rbits t <= 1023 -> wf_expr t e -> polynomial e ->
  Forall (fun v => (exists x : binary64, to_fraction_double (denote o) t little x = Ok v) \/
                   (exists x : binary32, to_fraction_float (denote o) t little x = Ok v) /\ rbits t <= 128) (leaves e) ->
  denotes e = Some q ->
  eval (denote o) t e = Ok r -> Z.abs (num r) <= rmax t -> Z.abs (den r) <= rmax t ->
  exists y, to_double t r = Ok y /\ is_finite 53 1024 y = true /\
    B2R 53 1024 y = to_nearest_double (Q2R q) /\ nearest q y.
Proof. exact c102_polynomials. Qed.
Print Assumptions C102_polynomials.

(** C102: in particular std::accumulate over doubles made into fractions gives the
    correctly rounded sum of any number of doubles. *)
Theorem C102_sum : forall o t xs vs r,
  signed_rep t -> 54 <= rbits t <= 1023 ->
  Forall2 (fun x v => is_finite 53 1024 x = true /\ to_fraction_double (denote o) t little x = Ok v) xs vs ->
  accumulate (denote o) t Plus (mkRaw 0 1) vs = Ok r -> Z.abs (num r) <= rmax t -> Z.abs (den r) <= rmax t ->
  exists y, to_double t r = Ok y /\ is_finite 53 1024 y = true /\ B2R 53 1024 y = to_nearest_double (real_sum xs).
Proof. exact c102_sum. Qed.
Print Assumptions C102_sum.

(** C102: and the double made from a variable after any program is within four units of
    2^-53 of the exact value, however long the program has run. *)
Theorem C102_programs : forall o ty fuel s q c s' q' x p,
  output_canonical o = true -> wf_store ty s -> represents s q -> wf_s ty c ->
  exec (denote o) ty fuel s c = Some (Ok s') -> run fuel q c = Some q' -> q' x = Some p ->
  rmax (ty x) <= 2 ^ 1022 -> Z.abs (num (s' x)) <= rmax (ty x) ->
  exists y qy, to_double (ty x) (s' x) = Ok y /\ float_value y = Some qy /\
    (Qabs (qy - p) <= 4 * (2 # 1) ^ (-53) * Qabs p)%Q.
Proof. exact c102_programs. Qed.
Print Assumptions C102_programs.

(** 2^8 and twice 2^-45: rounded after every step the sum of doubles is 2^8, the sum of
    the fractions is exact and converts to 2^8 + 2^-44. *)
Example c102_sum_case :
  let xs := [b64_of_bits 0x4070000000000000; b64_of_bits 0x3D20000000000000; b64_of_bits 0x3D20000000000000] in
  let vs := [mkRaw 256 1; mkRaw 1 35184372088832; mkRaw 1 35184372088832] in
  signed_rep int64 /\
  Forall2 (fun x v => is_finite 53 1024 x = true /\ to_fraction_double (denote defaults) int64 little x = Ok v) xs vs /\
  accumulate (denote defaults) int64 Plus (mkRaw 0 1) vs = Ok (mkRaw 4503599627370497 17592186044416) /\
  match to_double int64 (mkRaw 4503599627370497 17592186044416) with
  | Ok y => bits_of_b64 y = 0x4070000000000001
  | UB _ => False
  end /\
  match xs with
  | [a; b; c] => bits_of_b64 (b64_plus mode_NE (b64_plus mode_NE a b) c) = 0x4070000000000000
  | _ => False
  end.
Proof.
  cbv zeta. split; [split; [unfold wf_rep; cbn; lia|reflexivity]|]. split.
  - repeat constructor; vm_compute; reflexivity.
  - repeat split; vm_compute; reflexivity.
Qed.

(** A numerator beyond 2^53 is rounded to even. *)
Example c102_dyadic_case : dyadic (9007199254740993 # 4) /\ ~ exactly_representable 53 9007199254740993 /\
  match to_double int64 (mkRaw 9007199254740993 4) with Ok y => float_value y = Some (inject_Z 4503599627370496 * (2 # 1) ^ (-1))%Q | UB _ => False end.
Proof.
  split; [exists 9007199254740993, 2; split; [lia|reflexivity]|]. split; [|vm_compute; reflexivity].
  intros (m & k & K & E & M). destruct (Z.eq_dec k 0) as [->|]; [rewrite Z.pow_0_r in E; lia|].
  replace k with (1 + (k - 1)) in E by lia. rewrite Z.pow_add_r in E by lia. lia.
Qed.

(** The product of a float and a double plus one. *)
Example c102_polynomial_case :
  let e := BinInt Plus (Bin Multiplies (Leaf (mkRaw 3 2)) (Leaf (mkRaw (-5) 4))) 1 in
  polynomial e /\ wf_expr int64 e /\
  to_fraction_float (denote defaults) int64 little (b32_of_bits 0x3FC00000) = Ok (mkRaw 3 2) /\
  to_fraction_double (denote defaults) int64 little (b64_of_bits 0xBFF4000000000000) = Ok (mkRaw (-5) 4) /\
  eval (denote defaults) int64 e = Ok (mkRaw (-7) 8) /\ denotes e = Some (Qplus (Qmult (3 / 2) (-5 / 4)) 1) /\
  match to_double int64 (mkRaw (-7) 8) with Ok y => bits_of_b64 y = 0xBFEC000000000000 | UB _ => False end.
Proof.
  cbv zeta. split; [cbn; unfold ring_op; auto 10|]. split; [cbn; repeat split; reflexivity|].
  repeat split; vm_compute; reflexivity.
Qed.
