(** The examples of /repo/README.md:4-13 and 68-153, evaluated on the model with
    the types and the policy the document uses (int and the default policy,
    unless it says otherwise).  As in Upstream_tests.v these are tests of the
    model: the number after each entry is the line of the README. *)

From Coq Require Import ZArith List Bool.
From Flocq Require Import IEEE754.Binary IEEE754.Bits.
From Verif Require Import Machine Raw Ops Fraction Fmath Literals Float Upstream_tests.
Import ListNotations.
Open Scope Z_scope.

Definition bin (op : arith_op) : res raw -> res raw -> res raw :=
  RRs (f_arith (denote defaults) int32 int32 op).
Definition cmp (op : cmp_op) : res raw -> res raw -> res bool :=
  RRs (f_cmp (denote defaults) int32 int32 op).
(** A fraction is the one the document shows. *)
Definition shows (a : res raw) (n d : Z) : res bool := do x <- a; Ok (are_identical x (mkRaw n d)).
Definition shows_int (a : res Z) (n : Z) : res bool := do x <- a; Ok (x =? n).
Definition is (a : res bool) (b : bool) : res bool := do x <- a; Ok (Bool.eqb x b).
Definition on {A} (f : raw -> A) (a : res raw) : res A := do x <- a; Ok (f x).
(** x_dec, an intmax_t fraction. *)
Definition dec (s : list Z) : res raw :=
  do x <- literal_dec s; match x with Some r => Ok r | None => UB LibPrecond end.

Definition fr (a b : Z) : res raw := lit int32 a b.

Example readme_fractions : failures [
  (shows (Ok (mkRaw 1 2)) 1 2, 4);
  (shows (fr 3 4) 3 4, 5);
  (shows (bin Plus (fr 1 2) (fr 3 4)) 5 4, 6);
  (shows (bin Minus (fr 1 2) (fr 4 5)) (-3) 10, 7);
  (* 3/4_fr * 3/7_fr is ((3/4_fr) * 3) / 7_fr *)
  (shows (do x <- fr 3 4; do y <- f_arith (denote defaults) int32 int32 Multiplies (RI x 3);
          literal_divide_fraction (denote defaults) int32 y (literal_fr 7)) 9 28, 8);
  (shows (Ok (f_of_int 8)) 8 1, 9);
  (shows (to int64 int32 (dec [48; 46; 55; 53; 57])) 759 1000, 10);
  (shows (on reciprocal (fr 3 4)) 4 3, 11);
  (shows (do x <- fr 16 24; reduce int32 x normalize_signs_mode) 2 3, 12);
  (shows_int (do x <- fr 19 10; f_round (denote defaults) int32 x) 2, 13);
  (shows (Ok f_default) 0 1, 68);
  (shows (Ok (mkRaw 3 4)) 3 4, 69);
  (shows (Ok (f_of_int (-2))) (-2) 1, 70);
  (shows (match f_of_ratio int32 1 1000 with Some r => Ok r | None => UB LibPrecond end) 1 1000, 71);
  (shows (fr (-2) 7) (-2) 7, 75);
  (shows (lit uint32 7 9) 7 9, 76);
  (shows (dec [50; 46; 51; 55]) 237 100, 77);
  (shows (bin Plus (fr 1 2) (fr 3 4)) 5 4, 85);
  (shows (bin Minus (fr 1 2) (fr 4 5)) (-3) 10, 86);
  (shows (bin Divides (fr 3 4) (fr 3 2)) 1 2, 89);
  (shows (bin Modulus (fr 4 7) (fr 2 5)) 6 35, 90)
] = [].
Proof. vm_compute. reflexivity. Qed.

Example readme_comparisons : failures [
  (is (cmp Eq (fr 1 2) (fr 2 4)) true, 96);
  (is (cmp Ne (fr 1 2) (fr 2 4)) false, 97);
  (is (cmp Gt (fr 1 2) (fr 1 4)) true, 98);
  (is (cmp Ge (fr 1 2) (fr 1 3)) true, 99);
  (is (cmp Lt (fr 1 2) (fr 3 4)) true, 100);
  (is (cmp Le (fr 1 2) (fr 2 3)) true, 101)
] = [].
Proof. vm_compute. reflexivity. Qed.

Example readme_operations : failures [
  (shows (on reciprocal (fr 3 4)) 4 3, 107);
  (shows (do x <- fr 16 24; reduce int32 x normalize_signs_mode) 2 3, 109);
  (shows_int (do x <- fr 19 10; f_round (denote defaults) int32 x) 2, 111);
  (shows_int (do x <- fr 19 10; f_trunc int32 x) 1, 112);
  (shows_int (do x <- fr 19 10; f_floor int32 x) 1, 113);
  (shows_int (do x <- fr 19 10; f_ceil int32 x) 2, 114);
  (shows (do x <- fr (-4) 5; f_abs (denote defaults) int32 x) 4 5, 116);
  (shows (f_pow2 int32 (-3)) 1 8, 118);
  (shows (f_pow int32 3 (-2)) 1 9, 120)
] = [].
Proof. vm_compute. reflexivity. Qed.

Example readme_queries : failures [
  (is (on is_undefined (fr 2 0)) true, 126);
  (is (on is_positive (fr 3 4)) true, 128);
  (is (on is_zero (fr 0 4)) true, 129);
  (is (on is_negative (fr (-3) 4)) true, 130);
  (is (do x <- fr 2 1; is_integer int32 x) true, 132);
  (is (do x <- fr 1 3; is_unit_fraction int32 x) true, 133);
  (is (do x <- fr 5 10; is_reduced int32 x) false, 135);
  (is (do x <- fr 1 4; is_proper int32 x) true, 137);
  (is (do x <- fr 5 4; is_improper int32 x) true, 138);
  (is (do x <- fr 1 2; do y <- fr 1 2; Ok (are_identical x y)) true, 140);
  (is (do x <- fr 1 2; do y <- litn int32 (-1) 2; Ok (are_different x y)) true, 141)
] = [].
Proof. vm_compute. reflexivity. Qed.

(** Line 152 of the README gives 0.0625L for to_long_double(-1/16_fr); it is
    -0.0625L. *)
Example readme_floating_point : failures [
  (shows (to_fraction_float (denote defaults) int32 little (b32_of_bits 0x3EC00000)) 3 8, 147);
  (do x <- fr 1 4; do f <- to_float int32 x; Ok (bits_of_b32 f =? 0x3E800000), 150);
  (do x <- fr 5 8; do f <- to_double int32 x; Ok (bits_of_b64 f =? 0x3FE4000000000000), 151)
] = [].
Proof. vm_compute. reflexivity. Qed.

(** Line 148, to_fraction<int>(-2.25): the scale 2^52 is computed in an int
    (floating_point.hpp:199-200), whose shift is undefined.  It is a constant
    expression, so a compiler has to reject the README's own example; with a
    64-bit integer the example holds. *)
Example readme_double :
  to_fraction_double (denote defaults) int32 little (b64_of_bits 0xC002000000000000) = UB BadShift
  /\ to_fraction_double (denote defaults) int64 little (b64_of_bits 0xC002000000000000) = Ok (mkRaw (-9) 4).
Proof. vm_compute. auto. Qed.
