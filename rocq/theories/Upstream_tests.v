(** The assertions of the project's own unit tests, evaluated on the model.

    Each list holds the REQUIRE and REQUIRE_FALSE lines of one file of
    /repo/src/ieme (the number after each entry is its line), translated into the
    functions of the model; the tests that run for several types or policies
    appear once for each.  These are tests of the model, not theorems about it:
    they show that on the inputs the authors chose the model does what the
    authors say the code does. *)

From Coq Require Import ZArith List Bool.
From Flocq Require Import IEEE754.Binary IEEE754.Bits.
From Verif Require Import Machine Raw Ops Fraction Fmath Parse Limits Literals Mixed Hash Chrono
  Stream Float.
Import ListNotations.
Open Scope Z_scope.

(** An assertion passes when it is defined and true. *)
Definition passes (a : res bool * Z) : bool := match fst a with Ok b => b | UB _ => false end.
Definition failures (l : list (res bool * Z)) : list Z := map snd (filter (fun a => negb (passes a)) l).

(** a / b_fr and a / -b_fr, operators on computed operands, conversions. *)
Definition lit (t : rep) (a b : Z) : res raw := Ok (literal_divide_int t a (literal_fr b)).
Definition litn (t : rep) (a b : Z) : res raw :=
  do d <- literal_negate (literal_fr b); Ok (literal_divide_int t a d).
Definition RRs {A} (f : args -> res A) (a b : res raw) : res A := do x <- a; do y <- b; f (RR x y).
Definition RIs {A} (f : args -> res A) (a : res raw) (b : res Z) : res A := do x <- a; do y <- b; f (RI x y).
Definition IRs {A} (f : args -> res A) (a : res Z) (b : res raw) : res A := do x <- a; do y <- b; f (IR x y).
Definition to (s t : rep) (a : res raw) : res raw := do x <- a; Ok (f_convert s t x).

(** src/ieme/raw_fraction.test.cpp: 6 assertions. *)
Example upstream_raw_fraction : failures [
  ((do x <- (Ok 34); do y <- (do x <- (Ok (mkRaw 34 (-21))); Ok (num x)); Ok (x =? y)), 15);
  ((do x <- (Ok (-21)); do y <- (do x <- (Ok (mkRaw 34 (-21))); Ok (den x)); Ok (x =? y)), 16);
  ((do x <- (Ok (-54)); do y <- (do x <- (do x <- (Ok (mkRaw (-54) 47)); Ok (raw_cast int64 x)); Ok (num x)); Ok (x =? y)), 25);
  ((do x <- (Ok 47); do y <- (do x <- (do x <- (Ok (mkRaw (-54) 47)); Ok (raw_cast int64 x)); Ok (den x)); Ok (x =? y)), 26);
  ((do x <- (Ok (-5)); do y <- (do x <- (Ok (mkRaw (-5) 7)); Ok (num x)); Ok (x =? y)), 46);
  ((do x <- (Ok 7); do y <- (do x <- (Ok (mkRaw (-5) 7)); Ok (den x)); Ok (x =? y)), 47)
] = [].
Proof. vm_compute. reflexivity. Qed.

(** src/ieme/raw_fraction_math.test.cpp: 17 assertions. *)
Example upstream_raw_fraction_math : failures [
  ((do x <- (do x <- (Ok (mkRaw (-12) 32)); Ok (reciprocal x)); do y <- (Ok (mkRaw 32 (-12))); Ok (are_identical x y)), 14);
  ((do x <- (do x <- (Ok (mkRaw 3 5)); normalize_signs int32 x); do y <- (Ok (mkRaw 3 5)); Ok (are_identical x y)), 22);
  ((do x <- (do x <- (Ok (mkRaw (-3) 5)); normalize_signs int32 x); do y <- (Ok (mkRaw (-3) 5)); Ok (are_identical x y)), 24);
  ((do x <- (do x <- (Ok (mkRaw 3 (-5))); normalize_signs int32 x); do y <- (Ok (mkRaw (-3) 5)); Ok (are_identical x y)), 26);
  ((do x <- (do x <- (Ok (mkRaw (-3) (-5))); normalize_signs int32 x); do y <- (Ok (mkRaw 3 5)); Ok (are_identical x y)), 28);
  ((do x <- (do x <- (Ok (mkRaw 12 32)); reduce int32 x ignore_signs_mode); do y <- (Ok (mkRaw 3 8)); Ok (are_identical x y)), 34);
  ((do x <- (do x <- (Ok (mkRaw 12 32)); reduce int32 x normalize_signs_mode); do y <- (Ok (mkRaw 3 8)); Ok (are_identical x y)), 36);
  ((do x <- (do x <- (Ok (mkRaw (-12) 32)); reduce int32 x ignore_signs_mode); do y <- (Ok (mkRaw (-3) 8)); Ok (are_identical x y)), 40);
  ((do x <- (do x <- (Ok (mkRaw (-12) 32)); reduce int32 x normalize_signs_mode); do y <- (Ok (mkRaw (-3) 8)); Ok (are_identical x y)), 43);
  ((do x <- (do x <- (Ok (mkRaw 12 (-32))); reduce int32 x ignore_signs_mode); do y <- (Ok (mkRaw 3 (-8))); Ok (are_identical x y)), 47);
  ((do x <- (do x <- (Ok (mkRaw 12 (-32))); reduce int32 x normalize_signs_mode); do y <- (Ok (mkRaw (-3) 8)); Ok (are_identical x y)), 50);
  ((do x <- (do x <- (Ok (mkRaw (-12) (-32))); reduce int32 x ignore_signs_mode); do y <- (Ok (mkRaw (-3) (-8))); Ok (are_identical x y)), 54);
  ((do x <- (do x <- (Ok (mkRaw (-12) (-32))); reduce int32 x normalize_signs_mode); do y <- (Ok (mkRaw 3 8)); Ok (are_identical x y)), 57);
  ((do x <- (do x <- (Ok (mkRaw (-3) (-8))); reduce int32 x ignore_signs_mode); do y <- (Ok (mkRaw (-3) (-8))); Ok (are_identical x y)), 61);
  ((do x <- (do x <- (Ok (mkRaw (-3) (-8))); reduce int32 x normalize_signs_mode); do y <- (Ok (mkRaw 3 8)); Ok (are_identical x y)), 63);
  ((do x <- (do x <- (Ok (mkRaw (-12) 0)); reduce int32 x ignore_signs_mode); do y <- (Ok (mkRaw 0 0)); Ok (are_identical x y)), 67);
  ((do x <- (do x <- (Ok (mkRaw (-12) 0)); reduce int32 x normalize_signs_mode); do y <- (Ok (mkRaw 0 0)); Ok (are_identical x y)), 70)
] = [].
Proof. vm_compute. reflexivity. Qed.

(** src/ieme/raw_fraction_queries.test.cpp: 76 assertions. *)
Example upstream_raw_fraction_queries : failures [
  ((do x <- (Ok (mkRaw 10 5)); Ok (is_defined x)), 16);
  ((do b <- (do x <- (Ok (mkRaw 10 5)); Ok (is_undefined x)); Ok (negb b)), 17);
  ((do x <- (Ok (mkRaw (-5) 2)); Ok (is_defined x)), 21);
  ((do b <- (do x <- (Ok (mkRaw (-5) 2)); Ok (is_undefined x)); Ok (negb b)), 22);
  ((do x <- (Ok (mkRaw 0 1)); Ok (is_defined x)), 26);
  ((do b <- (do x <- (Ok (mkRaw 0 1)); Ok (is_undefined x)); Ok (negb b)), 27);
  ((do b <- (do x <- (Ok (mkRaw 1 0)); Ok (is_defined x)); Ok (negb b)), 31);
  ((do x <- (Ok (mkRaw 1 0)); Ok (is_undefined x)), 32);
  ((do x <- (Ok (mkRaw 12 32)); Ok (is_positive x)), 39);
  ((do x <- (Ok (mkRaw 12 32)); Ok (is_non_negative x)), 40);
  ((do b <- (do x <- (Ok (mkRaw 12 32)); Ok (is_zero x)); Ok (negb b)), 41);
  ((do b <- (do x <- (Ok (mkRaw 12 32)); Ok (is_non_positive x)); Ok (negb b)), 42);
  ((do b <- (do x <- (Ok (mkRaw 12 32)); Ok (is_negative x)); Ok (negb b)), 43);
  ((do b <- (do x <- (Ok (mkRaw (-5) 2)); Ok (is_positive x)); Ok (negb b)), 47);
  ((do b <- (do x <- (Ok (mkRaw (-5) 2)); Ok (is_non_negative x)); Ok (negb b)), 48);
  ((do b <- (do x <- (Ok (mkRaw (-5) 2)); Ok (is_zero x)); Ok (negb b)), 49);
  ((do x <- (Ok (mkRaw (-5) 2)); Ok (is_non_positive x)), 50);
  ((do x <- (Ok (mkRaw (-5) 2)); Ok (is_negative x)), 51);
  ((do b <- (do x <- (Ok (mkRaw 0 1)); Ok (is_positive x)); Ok (negb b)), 55);
  ((do x <- (Ok (mkRaw 0 1)); Ok (is_non_negative x)), 56);
  ((do x <- (Ok (mkRaw 0 1)); Ok (is_zero x)), 57);
  ((do x <- (Ok (mkRaw 0 1)); Ok (is_non_positive x)), 58);
  ((do b <- (do x <- (Ok (mkRaw 0 1)); Ok (is_negative x)); Ok (negb b)), 59);
  ((do b <- (do x <- (Ok (mkRaw 1 0)); Ok (is_positive x)); Ok (negb b)), 63);
  ((do b <- (do x <- (Ok (mkRaw 1 0)); Ok (is_non_negative x)); Ok (negb b)), 64);
  ((do b <- (do x <- (Ok (mkRaw 1 0)); Ok (is_zero x)); Ok (negb b)), 65);
  ((do b <- (do x <- (Ok (mkRaw 1 0)); Ok (is_non_positive x)); Ok (negb b)), 66);
  ((do b <- (do x <- (Ok (mkRaw 1 0)); Ok (is_negative x)); Ok (negb b)), 67);
  ((do x <- (Ok (mkRaw 10 5)); is_integer int32 x), 75);
  ((do b <- (do x <- (Ok (mkRaw (-5) 2)); is_integer int32 x); Ok (negb b)), 79);
  ((do x <- (Ok (mkRaw 0 1)); is_integer int32 x), 83);
  ((do b <- (do x <- (Ok (mkRaw 1 0)); is_integer int32 x); Ok (negb b)), 87);
  ((do x <- (Ok (mkRaw 5 10)); is_unit_fraction int32 x), 96);
  ((do b <- (do x <- (Ok (mkRaw (-5) 2)); is_unit_fraction int32 x); Ok (negb b)), 100);
  ((do b <- (do x <- (Ok (mkRaw 0 1)); is_unit_fraction int32 x); Ok (negb b)), 104);
  ((do b <- (do x <- (Ok (mkRaw 1 0)); is_unit_fraction int32 x); Ok (negb b)), 108);
  ((do x <- (Ok (mkRaw 3 4)); is_reduced_ignore_signs int32 x), 116);
  ((do x <- (Ok (mkRaw 3 4)); is_reduced int32 x), 117);
  ((do x <- (Ok (mkRaw (-5) 2)); is_reduced_ignore_signs int32 x), 121);
  ((do x <- (Ok (mkRaw (-5) 2)); is_reduced int32 x), 122);
  ((do x <- (Ok (mkRaw (-3) (-4))); is_reduced_ignore_signs int32 x), 126);
  ((do b <- (do x <- (Ok (mkRaw (-3) (-4))); is_reduced int32 x); Ok (negb b)), 127);
  ((do b <- (do x <- (Ok (mkRaw 6 8)); is_reduced_ignore_signs int32 x); Ok (negb b)), 131);
  ((do b <- (do x <- (Ok (mkRaw 6 8)); is_reduced int32 x); Ok (negb b)), 132);
  ((do b <- (do x <- (Ok (mkRaw (-6) (-8))); is_reduced_ignore_signs int32 x); Ok (negb b)), 136);
  ((do b <- (do x <- (Ok (mkRaw (-6) (-8))); is_reduced int32 x); Ok (negb b)), 137);
  ((do x <- (Ok (mkRaw 3 4)); is_proper int32 x), 145);
  ((do b <- (do x <- (Ok (mkRaw 3 4)); is_improper int32 x); Ok (negb b)), 146);
  ((do x <- (Ok (mkRaw (-3) 4)); is_proper int32 x), 150);
  ((do b <- (do x <- (Ok (mkRaw (-3) 4)); is_improper int32 x); Ok (negb b)), 151);
  ((do x <- (Ok (mkRaw 3 (-4))); is_proper int32 x), 155);
  ((do b <- (do x <- (Ok (mkRaw 3 (-4))); is_improper int32 x); Ok (negb b)), 156);
  ((do x <- (Ok (mkRaw (-3) (-4))); is_proper int32 x), 160);
  ((do b <- (do x <- (Ok (mkRaw (-3) (-4))); is_improper int32 x); Ok (negb b)), 161);
  ((do b <- (do x <- (Ok (mkRaw 5 4)); is_proper int32 x); Ok (negb b)), 165);
  ((do x <- (Ok (mkRaw 5 4)); is_improper int32 x), 166);
  ((do b <- (do x <- (Ok (mkRaw (-5) 4)); is_proper int32 x); Ok (negb b)), 170);
  ((do x <- (Ok (mkRaw (-5) 4)); is_improper int32 x), 171);
  ((do b <- (do x <- (Ok (mkRaw 5 (-4))); is_proper int32 x); Ok (negb b)), 175);
  ((do x <- (Ok (mkRaw 5 (-4))); is_improper int32 x), 176);
  ((do b <- (do x <- (Ok (mkRaw (-5) (-4))); is_proper int32 x); Ok (negb b)), 180);
  ((do x <- (Ok (mkRaw (-5) (-4))); is_improper int32 x), 181);
  ((do x <- (Ok (mkRaw 3 4)); do y <- (Ok (mkRaw 3 4)); Ok (are_identical x y)), 191);
  ((do b <- (do x <- (Ok (mkRaw 3 4)); do y <- (Ok (mkRaw 3 4)); Ok (are_different x y)); Ok (negb b)), 192);
  ((do b <- (do x <- (Ok (mkRaw 3 4)); do y <- (Ok (mkRaw (-3) 4)); Ok (are_identical x y)); Ok (negb b)), 194);
  ((do x <- (Ok (mkRaw 3 4)); do y <- (Ok (mkRaw (-3) 4)); Ok (are_different x y)), 195);
  ((do b <- (do x <- (Ok (mkRaw 3 4)); do y <- (Ok (mkRaw 3 (-4))); Ok (are_identical x y)); Ok (negb b)), 197);
  ((do x <- (Ok (mkRaw 3 4)); do y <- (Ok (mkRaw 3 (-4))); Ok (are_different x y)), 198);
  ((do b <- (do x <- (Ok (mkRaw 3 4)); do y <- (Ok (mkRaw (-3) (-4))); Ok (are_identical x y)); Ok (negb b)), 200);
  ((do x <- (Ok (mkRaw 3 4)); do y <- (Ok (mkRaw (-3) (-4))); Ok (are_different x y)), 201);
  ((do b <- (do x <- (Ok (mkRaw (-3) 4)); do y <- (Ok (mkRaw 3 (-4))); Ok (are_identical x y)); Ok (negb b)), 203);
  ((do x <- (Ok (mkRaw (-3) 4)); do y <- (Ok (mkRaw 3 (-4))); Ok (are_different x y)), 204);
  ((do b <- (do x <- (Ok (mkRaw (-3) 4)); do y <- (Ok (mkRaw (-3) (-4))); Ok (are_identical x y)); Ok (negb b)), 206);
  ((do x <- (Ok (mkRaw (-3) 4)); do y <- (Ok (mkRaw (-3) (-4))); Ok (are_different x y)), 207);
  ((do b <- (do x <- (Ok (mkRaw 3 (-4))); do y <- (Ok (mkRaw (-3) (-4))); Ok (are_identical x y)); Ok (negb b)), 209);
  ((do x <- (Ok (mkRaw 3 (-4))); do y <- (Ok (mkRaw (-3) (-4))); Ok (are_different x y)), 210)
] = [].
Proof. vm_compute. reflexivity. Qed.

(** src/ieme/fraction_queries.test.cpp: 37 assertions. *)
Example upstream_fraction_queries : failures [
  ((do x <- (lit int32 10 5); Ok (is_defined x)), 16);
  ((do b <- (do x <- (lit int32 10 5); Ok (is_undefined x)); Ok (negb b)), 17);
  ((do b <- (do x <- (lit int32 10 0); Ok (is_defined x)); Ok (negb b)), 19);
  ((do x <- (lit int32 10 0); Ok (is_undefined x)), 20);
  ((do x <- (lit int32 12 32); Ok (is_positive x)), 25);
  ((do x <- (lit int32 12 32); Ok (is_non_negative x)), 26);
  ((do b <- (do x <- (lit int32 12 32); Ok (is_zero x)); Ok (negb b)), 27);
  ((do b <- (do x <- (lit int32 12 32); Ok (is_non_positive x)); Ok (negb b)), 28);
  ((do b <- (do x <- (lit int32 12 32); Ok (is_negative x)); Ok (negb b)), 29);
  ((do b <- (do x <- (lit int32 (-5) 2); Ok (is_positive x)); Ok (negb b)), 31);
  ((do b <- (do x <- (lit int32 (-5) 2); Ok (is_non_negative x)); Ok (negb b)), 32);
  ((do b <- (do x <- (lit int32 (-5) 2); Ok (is_zero x)); Ok (negb b)), 33);
  ((do x <- (lit int32 (-5) 2); Ok (is_non_positive x)), 34);
  ((do x <- (lit int32 (-5) 2); Ok (is_negative x)), 35);
  ((do b <- (do x <- (lit int32 0 1); Ok (is_positive x)); Ok (negb b)), 37);
  ((do x <- (lit int32 0 1); Ok (is_non_negative x)), 38);
  ((do x <- (lit int32 0 1); Ok (is_zero x)), 39);
  ((do x <- (lit int32 0 1); Ok (is_non_positive x)), 40);
  ((do b <- (do x <- (lit int32 0 1); Ok (is_negative x)); Ok (negb b)), 41);
  ((do x <- (lit int32 4 1); is_integer int32 x), 47);
  ((do b <- (do x <- (lit int32 5 2); is_integer int32 x); Ok (negb b)), 48);
  ((do x <- (lit int32 1 2); is_unit_fraction int32 x), 54);
  ((do b <- (do x <- (lit int32 3 4); is_unit_fraction int32 x); Ok (negb b)), 55);
  ((do x <- (lit int32 3 4); is_reduced_ignore_signs int32 x), 61);
  ((do x <- (lit int32 3 4); is_reduced int32 x), 62);
  ((do x <- (litn int32 (-3) 4); is_reduced_ignore_signs int32 x), 64);
  ((do b <- (do x <- (litn int32 (-3) 4); is_reduced int32 x); Ok (negb b)), 65);
  ((do b <- (do x <- (lit int32 2 4); is_reduced_ignore_signs int32 x); Ok (negb b)), 67);
  ((do b <- (do x <- (lit int32 2 4); is_reduced int32 x); Ok (negb b)), 68);
  ((do x <- (lit int32 3 4); is_proper int32 x), 74);
  ((do b <- (do x <- (lit int32 3 4); is_improper int32 x); Ok (negb b)), 75);
  ((do b <- (do x <- (lit int32 3 2); is_proper int32 x); Ok (negb b)), 77);
  ((do x <- (lit int32 3 2); is_improper int32 x), 78);
  ((do x <- (lit int32 (-7) 15); do y <- (lit int32 (-7) 15); Ok (are_identical x y)), 83);
  ((do b <- (do x <- (lit int32 (-7) 15); do y <- (lit int32 (-7) 15); Ok (are_different x y)); Ok (negb b)), 84);
  ((do b <- (do x <- (lit int32 (-7) 15); do y <- (litn int32 7 15); Ok (are_identical x y)); Ok (negb b)), 86);
  ((do x <- (lit int32 (-7) 15); do y <- (litn int32 7 15); Ok (are_different x y)), 87)
] = [].
Proof. vm_compute. reflexivity. Qed.

(** src/ieme/fraction_math.test.cpp: 284 assertions. *)
Example upstream_fraction_math : failures [
  ((do x <- (do x <- (litn int32 4 19); Ok (reciprocal x)); do y <- (lit int32 (-19) 4); Ok (are_identical x y)), 16);
  ((do x <- (do x <- (lit int32 3 5); normalize_signs int32 x); do y <- (lit int32 3 5); Ok (are_identical x y)), 23);
  ((do x <- (do x <- (lit int32 (-3) 5); normalize_signs int32 x); do y <- (lit int32 (-3) 5); Ok (are_identical x y)), 24);
  ((do x <- (do x <- (litn int32 3 5); normalize_signs int32 x); do y <- (lit int32 (-3) 5); Ok (are_identical x y)), 25);
  ((do x <- (do x <- (litn int32 (-3) 5); normalize_signs int32 x); do y <- (lit int32 3 5); Ok (are_identical x y)), 26);
  ((do x <- (do x <- (lit int32 12 32); reduce int32 x ignore_signs_mode); do y <- (lit int32 3 8); Ok (are_identical x y)), 31);
  ((do x <- (do x <- (lit int32 12 32); reduce int32 x normalize_signs_mode); do y <- (lit int32 3 8); Ok (are_identical x y)), 33);
  ((do x <- (do x <- (lit int32 (-12) 32); reduce int32 x ignore_signs_mode); do y <- (lit int32 (-3) 8); Ok (are_identical x y)), 36);
  ((do x <- (do x <- (lit int32 (-12) 32); reduce int32 x normalize_signs_mode); do y <- (lit int32 (-3) 8); Ok (are_identical x y)), 38);
  ((do x <- (do x <- (litn int32 12 32); reduce int32 x ignore_signs_mode); do y <- (litn int32 3 8); Ok (are_identical x y)), 41);
  ((do x <- (do x <- (litn int32 12 32); reduce int32 x normalize_signs_mode); do y <- (lit int32 (-3) 8); Ok (are_identical x y)), 43);
  ((do x <- (do x <- (litn int32 (-12) 32); reduce int32 x ignore_signs_mode); do y <- (litn int32 (-3) 8); Ok (are_identical x y)), 46);
  ((do x <- (do x <- (litn int32 (-12) 32); reduce int32 x normalize_signs_mode); do y <- (lit int32 3 8); Ok (are_identical x y)), 48);
  ((do x <- (do x <- (litn int32 (-3) 8); reduce int32 x ignore_signs_mode); do y <- (litn int32 (-3) 8); Ok (are_identical x y)), 51);
  ((do x <- (do x <- (litn int32 (-3) 8); reduce int32 x normalize_signs_mode); do y <- (lit int32 3 8); Ok (are_identical x y)), 53);
  ((do x <- (do x <- (lit int32 (-12) 0); reduce int32 x ignore_signs_mode); do y <- (lit int32 0 0); Ok (are_identical x y)), 56);
  ((do x <- (do x <- (lit int32 (-12) 0); reduce int32 x normalize_signs_mode); do y <- (lit int32 0 0); Ok (are_identical x y)), 58);
  ((RRs (f_cmp (denote defaults) int32 int32 Eq) (do x <- (lit int32 3 2); f_abs (denote defaults) int32 x) (lit int32 3 2)), 64);
  ((do x <- (do x <- (lit int32 (-3) 2); f_abs (denote defaults) int32 x); do y <- (lit int32 3 2); f_cmp (denote defaults) int32 int32 Eq (RR x y)), 65);
  ((RIs (f_cmp (denote defaults) int32 int32 Eq) (do x <- (lit int32 0 1); f_abs (denote defaults) int32 x) (Ok 0)), 66);
  ((do x <- (Ok 2); do y <- (do x <- (lit int32 7 3); f_trunc int32 x); Ok (x =? y)), 71);
  ((do x <- (Ok 2); do y <- (do x <- (lit int32 8 3); f_trunc int32 x); Ok (x =? y)), 72);
  ((do x <- (Ok 2); do y <- (do x <- (lit int32 2 1); f_trunc int32 x); Ok (x =? y)), 73);
  ((do x <- (Ok (-2)); do y <- (do x <- (lit int32 (-7) 3); f_trunc int32 x); Ok (x =? y)), 74);
  ((do x <- (Ok (-2)); do y <- (do x <- (lit int32 (-8) 3); f_trunc int32 x); Ok (x =? y)), 75);
  ((do x <- (Ok (-2)); do y <- (do x <- (lit int32 (-2) 1); f_trunc int32 x); Ok (x =? y)), 76);
  ((do x <- (Ok 3); do y <- (do x <- (lit int32 7 3); f_ceil int32 x); Ok (x =? y)), 81);
  ((do x <- (Ok 3); do y <- (do x <- (lit int32 8 3); f_ceil int32 x); Ok (x =? y)), 82);
  ((do x <- (Ok 2); do y <- (do x <- (lit int32 2 1); f_ceil int32 x); Ok (x =? y)), 83);
  ((do x <- (Ok (-2)); do y <- (do x <- (lit int32 (-7) 3); f_ceil int32 x); Ok (x =? y)), 84);
  ((do x <- (Ok (-2)); do y <- (do x <- (lit int32 (-8) 3); f_ceil int32 x); Ok (x =? y)), 85);
  ((do x <- (Ok (-2)); do y <- (do x <- (lit int32 (-2) 1); f_ceil int32 x); Ok (x =? y)), 86);
  ((do x <- (Ok 2); do y <- (do x <- (lit int32 7 3); f_floor int32 x); Ok (x =? y)), 91);
  ((do x <- (Ok 2); do y <- (do x <- (lit int32 8 3); f_floor int32 x); Ok (x =? y)), 92);
  ((do x <- (Ok 2); do y <- (do x <- (lit int32 2 1); f_floor int32 x); Ok (x =? y)), 93);
  ((do x <- (Ok (-3)); do y <- (do x <- (lit int32 (-7) 3); f_floor int32 x); Ok (x =? y)), 94);
  ((do x <- (Ok (-3)); do y <- (do x <- (lit int32 (-8) 3); f_floor int32 x); Ok (x =? y)), 95);
  ((do x <- (Ok (-2)); do y <- (do x <- (lit int32 (-2) 1); f_floor int32 x); Ok (x =? y)), 96);
  ((do x <- (Ok 2); do y <- (do x <- (lit int32 7 3); f_round (denote defaults) int32 x); Ok (x =? y)), 101);
  ((do x <- (Ok 3); do y <- (do x <- (lit int32 8 3); f_round (denote defaults) int32 x); Ok (x =? y)), 102);
  ((do x <- (Ok 2); do y <- (do x <- (lit int32 2 1); f_round (denote defaults) int32 x); Ok (x =? y)), 103);
  ((do x <- (Ok (-2)); do y <- (do x <- (lit int32 (-7) 3); f_round (denote defaults) int32 x); Ok (x =? y)), 104);
  ((do x <- (Ok (-3)); do y <- (do x <- (lit int32 (-8) 3); f_round (denote defaults) int32 x); Ok (x =? y)), 105);
  ((do x <- (Ok (-2)); do y <- (do x <- (lit int32 (-2) 1); f_round (denote defaults) int32 x); Ok (x =? y)), 106);
  ((do x <- (Ok 2); do y <- (do x <- (lit int32 7 3); f_to_whole (denote defaults) int32 x round_trunc); Ok (x =? y)), 113);
  ((do x <- (Ok 2); do y <- (do x <- (lit int32 8 3); f_to_whole (denote defaults) int32 x round_trunc); Ok (x =? y)), 114);
  ((do x <- (Ok (-2)); do y <- (do x <- (lit int32 (-7) 3); f_to_whole (denote defaults) int32 x round_trunc); Ok (x =? y)), 115);
  ((do x <- (Ok (-2)); do y <- (do x <- (lit int32 (-8) 3); f_to_whole (denote defaults) int32 x round_trunc); Ok (x =? y)), 116);
  ((do x <- (Ok 3); do y <- (do x <- (lit int32 7 3); f_to_whole (denote defaults) int32 x round_ceil); Ok (x =? y)), 118);
  ((do x <- (Ok 3); do y <- (do x <- (lit int32 8 3); f_to_whole (denote defaults) int32 x round_ceil); Ok (x =? y)), 119);
  ((do x <- (Ok (-2)); do y <- (do x <- (lit int32 (-7) 3); f_to_whole (denote defaults) int32 x round_ceil); Ok (x =? y)), 120);
  ((do x <- (Ok (-2)); do y <- (do x <- (lit int32 (-8) 3); f_to_whole (denote defaults) int32 x round_ceil); Ok (x =? y)), 121);
  ((do x <- (Ok 2); do y <- (do x <- (lit int32 7 3); f_to_whole (denote defaults) int32 x round_floor); Ok (x =? y)), 123);
  ((do x <- (Ok 2); do y <- (do x <- (lit int32 8 3); f_to_whole (denote defaults) int32 x round_floor); Ok (x =? y)), 124);
  ((do x <- (Ok (-3)); do y <- (do x <- (lit int32 (-7) 3); f_to_whole (denote defaults) int32 x round_floor); Ok (x =? y)), 125);
  ((do x <- (Ok (-3)); do y <- (do x <- (lit int32 (-8) 3); f_to_whole (denote defaults) int32 x round_floor); Ok (x =? y)), 126);
  ((do x <- (Ok 2); do y <- (do x <- (lit int32 7 3); f_to_whole (denote defaults) int32 x round_round); Ok (x =? y)), 128);
  ((do x <- (Ok 3); do y <- (do x <- (lit int32 8 3); f_to_whole (denote defaults) int32 x round_round); Ok (x =? y)), 129);
  ((do x <- (Ok (-2)); do y <- (do x <- (lit int32 (-7) 3); f_to_whole (denote defaults) int32 x round_round); Ok (x =? y)), 130);
  ((do x <- (Ok (-3)); do y <- (do x <- (lit int32 (-8) 3); f_to_whole (denote defaults) int32 x round_round); Ok (x =? y)), 131);
  ((do x <- (do x <- (lit int32 4 3); do d <- (Ok 5); f_trunc_redenominate (denote defaults) int32 x d); do y <- (lit int32 6 5); Ok (are_identical x y)), 136);
  ((do x <- (do x <- (lit int32 5 3); do d <- (Ok 5); f_trunc_redenominate (denote defaults) int32 x d); do y <- (lit int32 8 5); Ok (are_identical x y)), 137);
  ((do x <- (do x <- (lit int32 2 5); do d <- (Ok 3); f_trunc_redenominate (denote defaults) int32 x d); do y <- (lit int32 1 3); Ok (are_identical x y)), 138);
  ((do x <- (do x <- (lit int32 3 5); do d <- (Ok 3); f_trunc_redenominate (denote defaults) int32 x d); do y <- (lit int32 1 3); Ok (are_identical x y)), 139);
  ((do x <- (do x <- (lit int32 1 4); do d <- (Ok 8); f_trunc_redenominate (denote defaults) int32 x d); do y <- (lit int32 2 8); Ok (are_identical x y)), 140);
  ((do x <- (do x <- (lit int32 2 8); do d <- (Ok 4); f_trunc_redenominate (denote defaults) int32 x d); do y <- (lit int32 1 4); Ok (are_identical x y)), 141);
  ((do x <- (do x <- (lit int32 (-4) 3); do d <- (Ok 5); f_trunc_redenominate (denote defaults) int32 x d); do y <- (lit int32 (-6) 5); Ok (are_identical x y)), 143);
  ((do x <- (do x <- (lit int32 (-5) 3); do d <- (Ok 5); f_trunc_redenominate (denote defaults) int32 x d); do y <- (lit int32 (-8) 5); Ok (are_identical x y)), 144);
  ((do x <- (do x <- (lit int32 (-2) 5); do d <- (Ok 3); f_trunc_redenominate (denote defaults) int32 x d); do y <- (lit int32 (-1) 3); Ok (are_identical x y)), 145);
  ((do x <- (do x <- (lit int32 (-3) 5); do d <- (Ok 3); f_trunc_redenominate (denote defaults) int32 x d); do y <- (lit int32 (-1) 3); Ok (are_identical x y)), 146);
  ((do x <- (do x <- (lit int32 (-1) 4); do d <- (Ok 8); f_trunc_redenominate (denote defaults) int32 x d); do y <- (lit int32 (-2) 8); Ok (are_identical x y)), 147);
  ((do x <- (do x <- (lit int32 (-2) 8); do d <- (Ok 4); f_trunc_redenominate (denote defaults) int32 x d); do y <- (lit int32 (-1) 4); Ok (are_identical x y)), 148);
  ((do x <- (do x <- (litn int32 4 3); do d <- (Ok 5); f_trunc_redenominate (denote defaults) int32 x d); do y <- (lit int32 (-6) 5); Ok (are_identical x y)), 150);
  ((do x <- (do x <- (litn int32 5 3); do d <- (Ok 5); f_trunc_redenominate (denote defaults) int32 x d); do y <- (lit int32 (-8) 5); Ok (are_identical x y)), 151);
  ((do x <- (do x <- (litn int32 2 5); do d <- (Ok 3); f_trunc_redenominate (denote defaults) int32 x d); do y <- (lit int32 (-1) 3); Ok (are_identical x y)), 152);
  ((do x <- (do x <- (litn int32 3 5); do d <- (Ok 3); f_trunc_redenominate (denote defaults) int32 x d); do y <- (lit int32 (-1) 3); Ok (are_identical x y)), 153);
  ((do x <- (do x <- (litn int32 1 4); do d <- (Ok 8); f_trunc_redenominate (denote defaults) int32 x d); do y <- (lit int32 (-2) 8); Ok (are_identical x y)), 154);
  ((do x <- (do x <- (litn int32 2 8); do d <- (Ok 4); f_trunc_redenominate (denote defaults) int32 x d); do y <- (lit int32 (-1) 4); Ok (are_identical x y)), 155);
  ((do x <- (do x <- (litn int32 (-4) 3); do d <- (Ok 5); f_trunc_redenominate (denote defaults) int32 x d); do y <- (lit int32 6 5); Ok (are_identical x y)), 157);
  ((do x <- (do x <- (litn int32 (-5) 3); do d <- (Ok 5); f_trunc_redenominate (denote defaults) int32 x d); do y <- (lit int32 8 5); Ok (are_identical x y)), 158);
  ((do x <- (do x <- (litn int32 (-2) 5); do d <- (Ok 3); f_trunc_redenominate (denote defaults) int32 x d); do y <- (lit int32 1 3); Ok (are_identical x y)), 159);
  ((do x <- (do x <- (litn int32 (-3) 5); do d <- (Ok 3); f_trunc_redenominate (denote defaults) int32 x d); do y <- (lit int32 1 3); Ok (are_identical x y)), 160);
  ((do x <- (do x <- (litn int32 (-1) 4); do d <- (Ok 8); f_trunc_redenominate (denote defaults) int32 x d); do y <- (lit int32 2 8); Ok (are_identical x y)), 161);
  ((do x <- (do x <- (litn int32 (-2) 8); do d <- (Ok 4); f_trunc_redenominate (denote defaults) int32 x d); do y <- (lit int32 1 4); Ok (are_identical x y)), 162);
  ((do x <- (do x <- (lit int32 4 3); do d <- (Ok (-5)); f_trunc_redenominate (denote defaults) int32 x d); do y <- (litn int32 (-6) 5); Ok (are_identical x y)), 164);
  ((do x <- (do x <- (lit int32 5 3); do d <- (Ok (-5)); f_trunc_redenominate (denote defaults) int32 x d); do y <- (litn int32 (-8) 5); Ok (are_identical x y)), 165);
  ((do x <- (do x <- (lit int32 2 5); do d <- (Ok (-3)); f_trunc_redenominate (denote defaults) int32 x d); do y <- (litn int32 (-1) 3); Ok (are_identical x y)), 166);
  ((do x <- (do x <- (lit int32 3 5); do d <- (Ok (-3)); f_trunc_redenominate (denote defaults) int32 x d); do y <- (litn int32 (-1) 3); Ok (are_identical x y)), 167);
  ((do x <- (do x <- (lit int32 1 4); do d <- (Ok (-8)); f_trunc_redenominate (denote defaults) int32 x d); do y <- (litn int32 (-2) 8); Ok (are_identical x y)), 168);
  ((do x <- (do x <- (lit int32 2 8); do d <- (Ok (-4)); f_trunc_redenominate (denote defaults) int32 x d); do y <- (litn int32 (-1) 4); Ok (are_identical x y)), 169);
  ((do x <- (do x <- (lit int32 (-4) 3); do d <- (Ok (-5)); f_trunc_redenominate (denote defaults) int32 x d); do y <- (litn int32 6 5); Ok (are_identical x y)), 171);
  ((do x <- (do x <- (lit int32 (-5) 3); do d <- (Ok (-5)); f_trunc_redenominate (denote defaults) int32 x d); do y <- (litn int32 8 5); Ok (are_identical x y)), 172);
  ((do x <- (do x <- (lit int32 (-2) 5); do d <- (Ok (-3)); f_trunc_redenominate (denote defaults) int32 x d); do y <- (litn int32 1 3); Ok (are_identical x y)), 173);
  ((do x <- (do x <- (lit int32 (-3) 5); do d <- (Ok (-3)); f_trunc_redenominate (denote defaults) int32 x d); do y <- (litn int32 1 3); Ok (are_identical x y)), 174);
  ((do x <- (do x <- (lit int32 (-1) 4); do d <- (Ok (-8)); f_trunc_redenominate (denote defaults) int32 x d); do y <- (litn int32 2 8); Ok (are_identical x y)), 175);
  ((do x <- (do x <- (lit int32 (-2) 8); do d <- (Ok (-4)); f_trunc_redenominate (denote defaults) int32 x d); do y <- (litn int32 1 4); Ok (are_identical x y)), 176);
  ((do x <- (do x <- (litn int32 4 3); do d <- (Ok (-5)); f_trunc_redenominate (denote defaults) int32 x d); do y <- (litn int32 6 5); Ok (are_identical x y)), 178);
  ((do x <- (do x <- (litn int32 5 3); do d <- (Ok (-5)); f_trunc_redenominate (denote defaults) int32 x d); do y <- (litn int32 8 5); Ok (are_identical x y)), 179);
  ((do x <- (do x <- (litn int32 2 5); do d <- (Ok (-3)); f_trunc_redenominate (denote defaults) int32 x d); do y <- (litn int32 1 3); Ok (are_identical x y)), 180);
  ((do x <- (do x <- (litn int32 3 5); do d <- (Ok (-3)); f_trunc_redenominate (denote defaults) int32 x d); do y <- (litn int32 1 3); Ok (are_identical x y)), 181);
  ((do x <- (do x <- (litn int32 1 4); do d <- (Ok (-8)); f_trunc_redenominate (denote defaults) int32 x d); do y <- (litn int32 2 8); Ok (are_identical x y)), 182);
  ((do x <- (do x <- (litn int32 2 8); do d <- (Ok (-4)); f_trunc_redenominate (denote defaults) int32 x d); do y <- (litn int32 1 4); Ok (are_identical x y)), 183);
  ((do x <- (do x <- (litn int32 (-4) 3); do d <- (Ok (-5)); f_trunc_redenominate (denote defaults) int32 x d); do y <- (litn int32 (-6) 5); Ok (are_identical x y)), 185);
  ((do x <- (do x <- (litn int32 (-5) 3); do d <- (Ok (-5)); f_trunc_redenominate (denote defaults) int32 x d); do y <- (litn int32 (-8) 5); Ok (are_identical x y)), 186);
  ((do x <- (do x <- (litn int32 (-2) 5); do d <- (Ok (-3)); f_trunc_redenominate (denote defaults) int32 x d); do y <- (litn int32 (-1) 3); Ok (are_identical x y)), 187);
  ((do x <- (do x <- (litn int32 (-3) 5); do d <- (Ok (-3)); f_trunc_redenominate (denote defaults) int32 x d); do y <- (litn int32 (-1) 3); Ok (are_identical x y)), 188);
  ((do x <- (do x <- (litn int32 (-1) 4); do d <- (Ok (-8)); f_trunc_redenominate (denote defaults) int32 x d); do y <- (litn int32 (-2) 8); Ok (are_identical x y)), 189);
  ((do x <- (do x <- (litn int32 (-2) 8); do d <- (Ok (-4)); f_trunc_redenominate (denote defaults) int32 x d); do y <- (litn int32 (-1) 4); Ok (are_identical x y)), 190);
  ((do x <- (do x <- (lit int32 4 3); do d <- (Ok 5); f_ceil_redenominate (denote defaults) int32 x d); do y <- (lit int32 7 5); Ok (are_identical x y)), 195);
  ((do x <- (do x <- (lit int32 5 3); do d <- (Ok 5); f_ceil_redenominate (denote defaults) int32 x d); do y <- (lit int32 9 5); Ok (are_identical x y)), 196);
  ((do x <- (do x <- (lit int32 2 5); do d <- (Ok 3); f_ceil_redenominate (denote defaults) int32 x d); do y <- (lit int32 2 3); Ok (are_identical x y)), 197);
  ((do x <- (do x <- (lit int32 3 5); do d <- (Ok 3); f_ceil_redenominate (denote defaults) int32 x d); do y <- (lit int32 2 3); Ok (are_identical x y)), 198);
  ((do x <- (do x <- (lit int32 1 4); do d <- (Ok 8); f_ceil_redenominate (denote defaults) int32 x d); do y <- (lit int32 2 8); Ok (are_identical x y)), 199);
  ((do x <- (do x <- (lit int32 2 8); do d <- (Ok 4); f_ceil_redenominate (denote defaults) int32 x d); do y <- (lit int32 1 4); Ok (are_identical x y)), 200);
  ((do x <- (do x <- (lit int32 (-4) 3); do d <- (Ok 5); f_ceil_redenominate (denote defaults) int32 x d); do y <- (lit int32 (-6) 5); Ok (are_identical x y)), 202);
  ((do x <- (do x <- (lit int32 (-5) 3); do d <- (Ok 5); f_ceil_redenominate (denote defaults) int32 x d); do y <- (lit int32 (-8) 5); Ok (are_identical x y)), 203);
  ((do x <- (do x <- (lit int32 (-2) 5); do d <- (Ok 3); f_ceil_redenominate (denote defaults) int32 x d); do y <- (lit int32 (-1) 3); Ok (are_identical x y)), 204);
  ((do x <- (do x <- (lit int32 (-3) 5); do d <- (Ok 3); f_ceil_redenominate (denote defaults) int32 x d); do y <- (lit int32 (-1) 3); Ok (are_identical x y)), 205);
  ((do x <- (do x <- (lit int32 (-1) 4); do d <- (Ok 8); f_ceil_redenominate (denote defaults) int32 x d); do y <- (lit int32 (-2) 8); Ok (are_identical x y)), 206);
  ((do x <- (do x <- (lit int32 (-2) 8); do d <- (Ok 4); f_ceil_redenominate (denote defaults) int32 x d); do y <- (lit int32 (-1) 4); Ok (are_identical x y)), 207);
  ((do x <- (do x <- (litn int32 4 3); do d <- (Ok 5); f_ceil_redenominate (denote defaults) int32 x d); do y <- (lit int32 (-6) 5); Ok (are_identical x y)), 209);
  ((do x <- (do x <- (litn int32 5 3); do d <- (Ok 5); f_ceil_redenominate (denote defaults) int32 x d); do y <- (lit int32 (-8) 5); Ok (are_identical x y)), 210);
  ((do x <- (do x <- (litn int32 2 5); do d <- (Ok 3); f_ceil_redenominate (denote defaults) int32 x d); do y <- (lit int32 (-1) 3); Ok (are_identical x y)), 211);
  ((do x <- (do x <- (litn int32 3 5); do d <- (Ok 3); f_ceil_redenominate (denote defaults) int32 x d); do y <- (lit int32 (-1) 3); Ok (are_identical x y)), 212);
  ((do x <- (do x <- (litn int32 1 4); do d <- (Ok 8); f_ceil_redenominate (denote defaults) int32 x d); do y <- (lit int32 (-2) 8); Ok (are_identical x y)), 213);
  ((do x <- (do x <- (litn int32 2 8); do d <- (Ok 4); f_ceil_redenominate (denote defaults) int32 x d); do y <- (lit int32 (-1) 4); Ok (are_identical x y)), 214);
  ((do x <- (do x <- (litn int32 (-4) 3); do d <- (Ok 5); f_ceil_redenominate (denote defaults) int32 x d); do y <- (lit int32 7 5); Ok (are_identical x y)), 216);
  ((do x <- (do x <- (litn int32 (-5) 3); do d <- (Ok 5); f_ceil_redenominate (denote defaults) int32 x d); do y <- (lit int32 9 5); Ok (are_identical x y)), 217);
  ((do x <- (do x <- (litn int32 (-2) 5); do d <- (Ok 3); f_ceil_redenominate (denote defaults) int32 x d); do y <- (lit int32 2 3); Ok (are_identical x y)), 218);
  ((do x <- (do x <- (litn int32 (-3) 5); do d <- (Ok 3); f_ceil_redenominate (denote defaults) int32 x d); do y <- (lit int32 2 3); Ok (are_identical x y)), 219);
  ((do x <- (do x <- (litn int32 (-1) 4); do d <- (Ok 8); f_ceil_redenominate (denote defaults) int32 x d); do y <- (lit int32 2 8); Ok (are_identical x y)), 220);
  ((do x <- (do x <- (litn int32 (-2) 8); do d <- (Ok 4); f_ceil_redenominate (denote defaults) int32 x d); do y <- (lit int32 1 4); Ok (are_identical x y)), 221);
  ((do x <- (do x <- (lit int32 4 3); do d <- (Ok (-5)); f_ceil_redenominate (denote defaults) int32 x d); do y <- (litn int32 (-7) 5); Ok (are_identical x y)), 223);
  ((do x <- (do x <- (lit int32 5 3); do d <- (Ok (-5)); f_ceil_redenominate (denote defaults) int32 x d); do y <- (litn int32 (-9) 5); Ok (are_identical x y)), 224);
  ((do x <- (do x <- (lit int32 2 5); do d <- (Ok (-3)); f_ceil_redenominate (denote defaults) int32 x d); do y <- (litn int32 (-2) 3); Ok (are_identical x y)), 225);
  ((do x <- (do x <- (lit int32 3 5); do d <- (Ok (-3)); f_ceil_redenominate (denote defaults) int32 x d); do y <- (litn int32 (-2) 3); Ok (are_identical x y)), 226);
  ((do x <- (do x <- (lit int32 1 4); do d <- (Ok (-8)); f_ceil_redenominate (denote defaults) int32 x d); do y <- (litn int32 (-2) 8); Ok (are_identical x y)), 227);
  ((do x <- (do x <- (lit int32 2 8); do d <- (Ok (-4)); f_ceil_redenominate (denote defaults) int32 x d); do y <- (litn int32 (-1) 4); Ok (are_identical x y)), 228);
  ((do x <- (do x <- (lit int32 (-4) 3); do d <- (Ok (-5)); f_ceil_redenominate (denote defaults) int32 x d); do y <- (litn int32 6 5); Ok (are_identical x y)), 230);
  ((do x <- (do x <- (lit int32 (-5) 3); do d <- (Ok (-5)); f_ceil_redenominate (denote defaults) int32 x d); do y <- (litn int32 8 5); Ok (are_identical x y)), 231);
  ((do x <- (do x <- (lit int32 (-2) 5); do d <- (Ok (-3)); f_ceil_redenominate (denote defaults) int32 x d); do y <- (litn int32 1 3); Ok (are_identical x y)), 232);
  ((do x <- (do x <- (lit int32 (-3) 5); do d <- (Ok (-3)); f_ceil_redenominate (denote defaults) int32 x d); do y <- (litn int32 1 3); Ok (are_identical x y)), 233);
  ((do x <- (do x <- (lit int32 (-1) 4); do d <- (Ok (-8)); f_ceil_redenominate (denote defaults) int32 x d); do y <- (litn int32 2 8); Ok (are_identical x y)), 234);
  ((do x <- (do x <- (lit int32 (-2) 8); do d <- (Ok (-4)); f_ceil_redenominate (denote defaults) int32 x d); do y <- (litn int32 1 4); Ok (are_identical x y)), 235);
  ((do x <- (do x <- (litn int32 4 3); do d <- (Ok (-5)); f_ceil_redenominate (denote defaults) int32 x d); do y <- (litn int32 6 5); Ok (are_identical x y)), 237);
  ((do x <- (do x <- (litn int32 5 3); do d <- (Ok (-5)); f_ceil_redenominate (denote defaults) int32 x d); do y <- (litn int32 8 5); Ok (are_identical x y)), 238);
  ((do x <- (do x <- (litn int32 2 5); do d <- (Ok (-3)); f_ceil_redenominate (denote defaults) int32 x d); do y <- (litn int32 1 3); Ok (are_identical x y)), 239);
  ((do x <- (do x <- (litn int32 3 5); do d <- (Ok (-3)); f_ceil_redenominate (denote defaults) int32 x d); do y <- (litn int32 1 3); Ok (are_identical x y)), 240);
  ((do x <- (do x <- (litn int32 1 4); do d <- (Ok (-8)); f_ceil_redenominate (denote defaults) int32 x d); do y <- (litn int32 2 8); Ok (are_identical x y)), 241);
  ((do x <- (do x <- (litn int32 2 8); do d <- (Ok (-4)); f_ceil_redenominate (denote defaults) int32 x d); do y <- (litn int32 1 4); Ok (are_identical x y)), 242);
  ((do x <- (do x <- (litn int32 (-4) 3); do d <- (Ok (-5)); f_ceil_redenominate (denote defaults) int32 x d); do y <- (litn int32 (-7) 5); Ok (are_identical x y)), 244);
  ((do x <- (do x <- (litn int32 (-5) 3); do d <- (Ok (-5)); f_ceil_redenominate (denote defaults) int32 x d); do y <- (litn int32 (-9) 5); Ok (are_identical x y)), 245);
  ((do x <- (do x <- (litn int32 (-2) 5); do d <- (Ok (-3)); f_ceil_redenominate (denote defaults) int32 x d); do y <- (litn int32 (-2) 3); Ok (are_identical x y)), 246);
  ((do x <- (do x <- (litn int32 (-3) 5); do d <- (Ok (-3)); f_ceil_redenominate (denote defaults) int32 x d); do y <- (litn int32 (-2) 3); Ok (are_identical x y)), 247);
  ((do x <- (do x <- (litn int32 (-1) 4); do d <- (Ok (-8)); f_ceil_redenominate (denote defaults) int32 x d); do y <- (litn int32 (-2) 8); Ok (are_identical x y)), 248);
  ((do x <- (do x <- (litn int32 (-2) 8); do d <- (Ok (-4)); f_ceil_redenominate (denote defaults) int32 x d); do y <- (litn int32 (-1) 4); Ok (are_identical x y)), 249);
  ((do x <- (do x <- (lit int32 4 3); do d <- (Ok 5); f_floor_redenominate (denote defaults) int32 x d); do y <- (lit int32 6 5); Ok (are_identical x y)), 254);
  ((do x <- (do x <- (lit int32 5 3); do d <- (Ok 5); f_floor_redenominate (denote defaults) int32 x d); do y <- (lit int32 8 5); Ok (are_identical x y)), 255);
  ((do x <- (do x <- (lit int32 2 5); do d <- (Ok 3); f_floor_redenominate (denote defaults) int32 x d); do y <- (lit int32 1 3); Ok (are_identical x y)), 256);
  ((do x <- (do x <- (lit int32 3 5); do d <- (Ok 3); f_floor_redenominate (denote defaults) int32 x d); do y <- (lit int32 1 3); Ok (are_identical x y)), 257);
  ((do x <- (do x <- (lit int32 1 4); do d <- (Ok 8); f_floor_redenominate (denote defaults) int32 x d); do y <- (lit int32 2 8); Ok (are_identical x y)), 258);
  ((do x <- (do x <- (lit int32 2 8); do d <- (Ok 4); f_floor_redenominate (denote defaults) int32 x d); do y <- (lit int32 1 4); Ok (are_identical x y)), 259);
  ((do x <- (do x <- (lit int32 (-4) 3); do d <- (Ok 5); f_floor_redenominate (denote defaults) int32 x d); do y <- (lit int32 (-7) 5); Ok (are_identical x y)), 261);
  ((do x <- (do x <- (lit int32 (-5) 3); do d <- (Ok 5); f_floor_redenominate (denote defaults) int32 x d); do y <- (lit int32 (-9) 5); Ok (are_identical x y)), 262);
  ((do x <- (do x <- (lit int32 (-2) 5); do d <- (Ok 3); f_floor_redenominate (denote defaults) int32 x d); do y <- (lit int32 (-2) 3); Ok (are_identical x y)), 263);
  ((do x <- (do x <- (lit int32 (-3) 5); do d <- (Ok 3); f_floor_redenominate (denote defaults) int32 x d); do y <- (lit int32 (-2) 3); Ok (are_identical x y)), 264);
  ((do x <- (do x <- (lit int32 (-1) 4); do d <- (Ok 8); f_floor_redenominate (denote defaults) int32 x d); do y <- (lit int32 (-2) 8); Ok (are_identical x y)), 265);
  ((do x <- (do x <- (lit int32 (-2) 8); do d <- (Ok 4); f_floor_redenominate (denote defaults) int32 x d); do y <- (lit int32 (-1) 4); Ok (are_identical x y)), 266);
  ((do x <- (do x <- (litn int32 4 3); do d <- (Ok 5); f_floor_redenominate (denote defaults) int32 x d); do y <- (lit int32 (-7) 5); Ok (are_identical x y)), 268);
  ((do x <- (do x <- (litn int32 5 3); do d <- (Ok 5); f_floor_redenominate (denote defaults) int32 x d); do y <- (lit int32 (-9) 5); Ok (are_identical x y)), 269);
  ((do x <- (do x <- (litn int32 2 5); do d <- (Ok 3); f_floor_redenominate (denote defaults) int32 x d); do y <- (lit int32 (-2) 3); Ok (are_identical x y)), 270);
  ((do x <- (do x <- (litn int32 3 5); do d <- (Ok 3); f_floor_redenominate (denote defaults) int32 x d); do y <- (lit int32 (-2) 3); Ok (are_identical x y)), 271);
  ((do x <- (do x <- (litn int32 1 4); do d <- (Ok 8); f_floor_redenominate (denote defaults) int32 x d); do y <- (lit int32 (-2) 8); Ok (are_identical x y)), 272);
  ((do x <- (do x <- (litn int32 2 8); do d <- (Ok 4); f_floor_redenominate (denote defaults) int32 x d); do y <- (lit int32 (-1) 4); Ok (are_identical x y)), 273);
  ((do x <- (do x <- (litn int32 (-4) 3); do d <- (Ok 5); f_floor_redenominate (denote defaults) int32 x d); do y <- (lit int32 6 5); Ok (are_identical x y)), 275);
  ((do x <- (do x <- (litn int32 (-5) 3); do d <- (Ok 5); f_floor_redenominate (denote defaults) int32 x d); do y <- (lit int32 8 5); Ok (are_identical x y)), 276);
  ((do x <- (do x <- (litn int32 (-2) 5); do d <- (Ok 3); f_floor_redenominate (denote defaults) int32 x d); do y <- (lit int32 1 3); Ok (are_identical x y)), 277);
  ((do x <- (do x <- (litn int32 (-3) 5); do d <- (Ok 3); f_floor_redenominate (denote defaults) int32 x d); do y <- (lit int32 1 3); Ok (are_identical x y)), 278);
  ((do x <- (do x <- (litn int32 (-1) 4); do d <- (Ok 8); f_floor_redenominate (denote defaults) int32 x d); do y <- (lit int32 2 8); Ok (are_identical x y)), 279);
  ((do x <- (do x <- (litn int32 (-2) 8); do d <- (Ok 4); f_floor_redenominate (denote defaults) int32 x d); do y <- (lit int32 1 4); Ok (are_identical x y)), 280);
  ((do x <- (do x <- (lit int32 4 3); do d <- (Ok (-5)); f_floor_redenominate (denote defaults) int32 x d); do y <- (litn int32 (-6) 5); Ok (are_identical x y)), 282);
  ((do x <- (do x <- (lit int32 5 3); do d <- (Ok (-5)); f_floor_redenominate (denote defaults) int32 x d); do y <- (litn int32 (-8) 5); Ok (are_identical x y)), 283);
  ((do x <- (do x <- (lit int32 2 5); do d <- (Ok (-3)); f_floor_redenominate (denote defaults) int32 x d); do y <- (litn int32 (-1) 3); Ok (are_identical x y)), 284);
  ((do x <- (do x <- (lit int32 3 5); do d <- (Ok (-3)); f_floor_redenominate (denote defaults) int32 x d); do y <- (litn int32 (-1) 3); Ok (are_identical x y)), 285);
  ((do x <- (do x <- (lit int32 1 4); do d <- (Ok (-8)); f_floor_redenominate (denote defaults) int32 x d); do y <- (litn int32 (-2) 8); Ok (are_identical x y)), 286);
  ((do x <- (do x <- (lit int32 2 8); do d <- (Ok (-4)); f_floor_redenominate (denote defaults) int32 x d); do y <- (litn int32 (-1) 4); Ok (are_identical x y)), 287);
  ((do x <- (do x <- (lit int32 (-4) 3); do d <- (Ok (-5)); f_floor_redenominate (denote defaults) int32 x d); do y <- (litn int32 7 5); Ok (are_identical x y)), 289);
  ((do x <- (do x <- (lit int32 (-5) 3); do d <- (Ok (-5)); f_floor_redenominate (denote defaults) int32 x d); do y <- (litn int32 9 5); Ok (are_identical x y)), 290);
  ((do x <- (do x <- (lit int32 (-2) 5); do d <- (Ok (-3)); f_floor_redenominate (denote defaults) int32 x d); do y <- (litn int32 2 3); Ok (are_identical x y)), 291);
  ((do x <- (do x <- (lit int32 (-3) 5); do d <- (Ok (-3)); f_floor_redenominate (denote defaults) int32 x d); do y <- (litn int32 2 3); Ok (are_identical x y)), 292);
  ((do x <- (do x <- (lit int32 (-1) 4); do d <- (Ok (-8)); f_floor_redenominate (denote defaults) int32 x d); do y <- (litn int32 2 8); Ok (are_identical x y)), 293);
  ((do x <- (do x <- (lit int32 (-2) 8); do d <- (Ok (-4)); f_floor_redenominate (denote defaults) int32 x d); do y <- (litn int32 1 4); Ok (are_identical x y)), 294);
  ((do x <- (do x <- (litn int32 4 3); do d <- (Ok (-5)); f_floor_redenominate (denote defaults) int32 x d); do y <- (litn int32 7 5); Ok (are_identical x y)), 296);
  ((do x <- (do x <- (litn int32 5 3); do d <- (Ok (-5)); f_floor_redenominate (denote defaults) int32 x d); do y <- (litn int32 9 5); Ok (are_identical x y)), 297);
  ((do x <- (do x <- (litn int32 2 5); do d <- (Ok (-3)); f_floor_redenominate (denote defaults) int32 x d); do y <- (litn int32 2 3); Ok (are_identical x y)), 298);
  ((do x <- (do x <- (litn int32 3 5); do d <- (Ok (-3)); f_floor_redenominate (denote defaults) int32 x d); do y <- (litn int32 2 3); Ok (are_identical x y)), 299);
  ((do x <- (do x <- (litn int32 1 4); do d <- (Ok (-8)); f_floor_redenominate (denote defaults) int32 x d); do y <- (litn int32 2 8); Ok (are_identical x y)), 300);
  ((do x <- (do x <- (litn int32 2 8); do d <- (Ok (-4)); f_floor_redenominate (denote defaults) int32 x d); do y <- (litn int32 1 4); Ok (are_identical x y)), 301);
  ((do x <- (do x <- (litn int32 (-4) 3); do d <- (Ok (-5)); f_floor_redenominate (denote defaults) int32 x d); do y <- (litn int32 (-6) 5); Ok (are_identical x y)), 303);
  ((do x <- (do x <- (litn int32 (-5) 3); do d <- (Ok (-5)); f_floor_redenominate (denote defaults) int32 x d); do y <- (litn int32 (-8) 5); Ok (are_identical x y)), 304);
  ((do x <- (do x <- (litn int32 (-2) 5); do d <- (Ok (-3)); f_floor_redenominate (denote defaults) int32 x d); do y <- (litn int32 (-1) 3); Ok (are_identical x y)), 305);
  ((do x <- (do x <- (litn int32 (-3) 5); do d <- (Ok (-3)); f_floor_redenominate (denote defaults) int32 x d); do y <- (litn int32 (-1) 3); Ok (are_identical x y)), 306);
  ((do x <- (do x <- (litn int32 (-1) 4); do d <- (Ok (-8)); f_floor_redenominate (denote defaults) int32 x d); do y <- (litn int32 (-2) 8); Ok (are_identical x y)), 307);
  ((do x <- (do x <- (litn int32 (-2) 8); do d <- (Ok (-4)); f_floor_redenominate (denote defaults) int32 x d); do y <- (litn int32 (-1) 4); Ok (are_identical x y)), 308);
  ((do x <- (do x <- (lit int32 4 3); do d <- (Ok 5); f_round_redenominate (denote defaults) int32 x d); do y <- (lit int32 7 5); Ok (are_identical x y)), 313);
  ((do x <- (do x <- (lit int32 5 3); do d <- (Ok 5); f_round_redenominate (denote defaults) int32 x d); do y <- (lit int32 8 5); Ok (are_identical x y)), 314);
  ((do x <- (do x <- (lit int32 2 5); do d <- (Ok 3); f_round_redenominate (denote defaults) int32 x d); do y <- (lit int32 1 3); Ok (are_identical x y)), 315);
  ((do x <- (do x <- (lit int32 3 5); do d <- (Ok 3); f_round_redenominate (denote defaults) int32 x d); do y <- (lit int32 2 3); Ok (are_identical x y)), 316);
  ((do x <- (do x <- (lit int32 1 4); do d <- (Ok 8); f_round_redenominate (denote defaults) int32 x d); do y <- (lit int32 2 8); Ok (are_identical x y)), 317);
  ((do x <- (do x <- (lit int32 2 8); do d <- (Ok 4); f_round_redenominate (denote defaults) int32 x d); do y <- (lit int32 1 4); Ok (are_identical x y)), 318);
  ((do x <- (do x <- (lit int32 (-4) 3); do d <- (Ok 5); f_round_redenominate (denote defaults) int32 x d); do y <- (lit int32 (-7) 5); Ok (are_identical x y)), 320);
  ((do x <- (do x <- (lit int32 (-5) 3); do d <- (Ok 5); f_round_redenominate (denote defaults) int32 x d); do y <- (lit int32 (-8) 5); Ok (are_identical x y)), 321);
  ((do x <- (do x <- (lit int32 (-2) 5); do d <- (Ok 3); f_round_redenominate (denote defaults) int32 x d); do y <- (lit int32 (-1) 3); Ok (are_identical x y)), 322);
  ((do x <- (do x <- (lit int32 (-3) 5); do d <- (Ok 3); f_round_redenominate (denote defaults) int32 x d); do y <- (lit int32 (-2) 3); Ok (are_identical x y)), 323);
  ((do x <- (do x <- (lit int32 (-1) 4); do d <- (Ok 8); f_round_redenominate (denote defaults) int32 x d); do y <- (lit int32 (-2) 8); Ok (are_identical x y)), 324);
  ((do x <- (do x <- (lit int32 (-2) 8); do d <- (Ok 4); f_round_redenominate (denote defaults) int32 x d); do y <- (lit int32 (-1) 4); Ok (are_identical x y)), 325);
  ((do x <- (do x <- (litn int32 4 3); do d <- (Ok 5); f_round_redenominate (denote defaults) int32 x d); do y <- (lit int32 (-7) 5); Ok (are_identical x y)), 327);
  ((do x <- (do x <- (litn int32 5 3); do d <- (Ok 5); f_round_redenominate (denote defaults) int32 x d); do y <- (lit int32 (-8) 5); Ok (are_identical x y)), 328);
  ((do x <- (do x <- (litn int32 2 5); do d <- (Ok 3); f_round_redenominate (denote defaults) int32 x d); do y <- (lit int32 (-1) 3); Ok (are_identical x y)), 329);
  ((do x <- (do x <- (litn int32 3 5); do d <- (Ok 3); f_round_redenominate (denote defaults) int32 x d); do y <- (lit int32 (-2) 3); Ok (are_identical x y)), 330);
  ((do x <- (do x <- (litn int32 1 4); do d <- (Ok 8); f_round_redenominate (denote defaults) int32 x d); do y <- (lit int32 (-2) 8); Ok (are_identical x y)), 331);
  ((do x <- (do x <- (litn int32 2 8); do d <- (Ok 4); f_round_redenominate (denote defaults) int32 x d); do y <- (lit int32 (-1) 4); Ok (are_identical x y)), 332);
  ((do x <- (do x <- (litn int32 (-4) 3); do d <- (Ok 5); f_round_redenominate (denote defaults) int32 x d); do y <- (lit int32 7 5); Ok (are_identical x y)), 334);
  ((do x <- (do x <- (litn int32 (-5) 3); do d <- (Ok 5); f_round_redenominate (denote defaults) int32 x d); do y <- (lit int32 8 5); Ok (are_identical x y)), 335);
  ((do x <- (do x <- (litn int32 (-2) 5); do d <- (Ok 3); f_round_redenominate (denote defaults) int32 x d); do y <- (lit int32 1 3); Ok (are_identical x y)), 336);
  ((do x <- (do x <- (litn int32 (-3) 5); do d <- (Ok 3); f_round_redenominate (denote defaults) int32 x d); do y <- (lit int32 2 3); Ok (are_identical x y)), 337);
  ((do x <- (do x <- (litn int32 (-1) 4); do d <- (Ok 8); f_round_redenominate (denote defaults) int32 x d); do y <- (lit int32 2 8); Ok (are_identical x y)), 338);
  ((do x <- (do x <- (litn int32 (-2) 8); do d <- (Ok 4); f_round_redenominate (denote defaults) int32 x d); do y <- (lit int32 1 4); Ok (are_identical x y)), 339);
  ((do x <- (do x <- (lit int32 4 3); do d <- (Ok (-5)); f_round_redenominate (denote defaults) int32 x d); do y <- (litn int32 (-7) 5); Ok (are_identical x y)), 341);
  ((do x <- (do x <- (lit int32 5 3); do d <- (Ok (-5)); f_round_redenominate (denote defaults) int32 x d); do y <- (litn int32 (-8) 5); Ok (are_identical x y)), 342);
  ((do x <- (do x <- (lit int32 2 5); do d <- (Ok (-3)); f_round_redenominate (denote defaults) int32 x d); do y <- (litn int32 (-1) 3); Ok (are_identical x y)), 343);
  ((do x <- (do x <- (lit int32 3 5); do d <- (Ok (-3)); f_round_redenominate (denote defaults) int32 x d); do y <- (litn int32 (-2) 3); Ok (are_identical x y)), 344);
  ((do x <- (do x <- (lit int32 1 4); do d <- (Ok (-8)); f_round_redenominate (denote defaults) int32 x d); do y <- (litn int32 (-2) 8); Ok (are_identical x y)), 345);
  ((do x <- (do x <- (lit int32 2 8); do d <- (Ok (-4)); f_round_redenominate (denote defaults) int32 x d); do y <- (litn int32 (-1) 4); Ok (are_identical x y)), 346);
  ((do x <- (do x <- (lit int32 (-4) 3); do d <- (Ok (-5)); f_round_redenominate (denote defaults) int32 x d); do y <- (litn int32 7 5); Ok (are_identical x y)), 348);
  ((do x <- (do x <- (lit int32 (-5) 3); do d <- (Ok (-5)); f_round_redenominate (denote defaults) int32 x d); do y <- (litn int32 8 5); Ok (are_identical x y)), 349);
  ((do x <- (do x <- (lit int32 (-2) 5); do d <- (Ok (-3)); f_round_redenominate (denote defaults) int32 x d); do y <- (litn int32 1 3); Ok (are_identical x y)), 350);
  ((do x <- (do x <- (lit int32 (-3) 5); do d <- (Ok (-3)); f_round_redenominate (denote defaults) int32 x d); do y <- (litn int32 2 3); Ok (are_identical x y)), 351);
  ((do x <- (do x <- (lit int32 (-1) 4); do d <- (Ok (-8)); f_round_redenominate (denote defaults) int32 x d); do y <- (litn int32 2 8); Ok (are_identical x y)), 352);
  ((do x <- (do x <- (lit int32 (-2) 8); do d <- (Ok (-4)); f_round_redenominate (denote defaults) int32 x d); do y <- (litn int32 1 4); Ok (are_identical x y)), 353);
  ((do x <- (do x <- (litn int32 4 3); do d <- (Ok (-5)); f_round_redenominate (denote defaults) int32 x d); do y <- (litn int32 7 5); Ok (are_identical x y)), 355);
  ((do x <- (do x <- (litn int32 5 3); do d <- (Ok (-5)); f_round_redenominate (denote defaults) int32 x d); do y <- (litn int32 8 5); Ok (are_identical x y)), 356);
  ((do x <- (do x <- (litn int32 2 5); do d <- (Ok (-3)); f_round_redenominate (denote defaults) int32 x d); do y <- (litn int32 1 3); Ok (are_identical x y)), 357);
  ((do x <- (do x <- (litn int32 3 5); do d <- (Ok (-3)); f_round_redenominate (denote defaults) int32 x d); do y <- (litn int32 2 3); Ok (are_identical x y)), 358);
  ((do x <- (do x <- (litn int32 1 4); do d <- (Ok (-8)); f_round_redenominate (denote defaults) int32 x d); do y <- (litn int32 2 8); Ok (are_identical x y)), 359);
  ((do x <- (do x <- (litn int32 2 8); do d <- (Ok (-4)); f_round_redenominate (denote defaults) int32 x d); do y <- (litn int32 1 4); Ok (are_identical x y)), 360);
  ((do x <- (do x <- (litn int32 (-4) 3); do d <- (Ok (-5)); f_round_redenominate (denote defaults) int32 x d); do y <- (litn int32 (-7) 5); Ok (are_identical x y)), 362);
  ((do x <- (do x <- (litn int32 (-5) 3); do d <- (Ok (-5)); f_round_redenominate (denote defaults) int32 x d); do y <- (litn int32 (-8) 5); Ok (are_identical x y)), 363);
  ((do x <- (do x <- (litn int32 (-2) 5); do d <- (Ok (-3)); f_round_redenominate (denote defaults) int32 x d); do y <- (litn int32 (-1) 3); Ok (are_identical x y)), 364);
  ((do x <- (do x <- (litn int32 (-3) 5); do d <- (Ok (-3)); f_round_redenominate (denote defaults) int32 x d); do y <- (litn int32 (-2) 3); Ok (are_identical x y)), 365);
  ((do x <- (do x <- (litn int32 (-1) 4); do d <- (Ok (-8)); f_round_redenominate (denote defaults) int32 x d); do y <- (litn int32 (-2) 8); Ok (are_identical x y)), 366);
  ((do x <- (do x <- (litn int32 (-2) 8); do d <- (Ok (-4)); f_round_redenominate (denote defaults) int32 x d); do y <- (litn int32 (-1) 4); Ok (are_identical x y)), 367);
  ((do x <- (do x <- (lit int32 4 3); do d <- (Ok 5); f_redenominate (denote defaults) int32 x d round_trunc); do y <- (lit int32 6 5); Ok (are_identical x y)), 373);
  ((do x <- (do x <- (lit int32 5 3); do d <- (Ok 5); f_redenominate (denote defaults) int32 x d round_trunc); do y <- (lit int32 8 5); Ok (are_identical x y)), 375);
  ((do x <- (do x <- (lit int32 (-4) 3); do d <- (Ok 5); f_redenominate (denote defaults) int32 x d round_trunc); do y <- (lit int32 (-6) 5); Ok (are_identical x y)), 377);
  ((do x <- (do x <- (lit int32 (-5) 3); do d <- (Ok 5); f_redenominate (denote defaults) int32 x d round_trunc); do y <- (lit int32 (-8) 5); Ok (are_identical x y)), 379);
  ((do x <- (do x <- (lit int32 4 3); do d <- (Ok 5); f_redenominate (denote defaults) int32 x d round_ceil); do y <- (lit int32 7 5); Ok (are_identical x y)), 382);
  ((do x <- (do x <- (lit int32 5 3); do d <- (Ok 5); f_redenominate (denote defaults) int32 x d round_ceil); do y <- (lit int32 9 5); Ok (are_identical x y)), 383);
  ((do x <- (do x <- (lit int32 (-4) 3); do d <- (Ok 5); f_redenominate (denote defaults) int32 x d round_ceil); do y <- (lit int32 (-6) 5); Ok (are_identical x y)), 384);
  ((do x <- (do x <- (lit int32 (-5) 3); do d <- (Ok 5); f_redenominate (denote defaults) int32 x d round_ceil); do y <- (lit int32 (-8) 5); Ok (are_identical x y)), 386);
  ((do x <- (do x <- (lit int32 4 3); do d <- (Ok 5); f_redenominate (denote defaults) int32 x d round_floor); do y <- (lit int32 6 5); Ok (are_identical x y)), 389);
  ((do x <- (do x <- (lit int32 5 3); do d <- (Ok 5); f_redenominate (denote defaults) int32 x d round_floor); do y <- (lit int32 8 5); Ok (are_identical x y)), 391);
  ((do x <- (do x <- (lit int32 (-4) 3); do d <- (Ok 5); f_redenominate (denote defaults) int32 x d round_floor); do y <- (lit int32 (-7) 5); Ok (are_identical x y)), 393);
  ((do x <- (do x <- (lit int32 (-5) 3); do d <- (Ok 5); f_redenominate (denote defaults) int32 x d round_floor); do y <- (lit int32 (-9) 5); Ok (are_identical x y)), 395);
  ((do x <- (do x <- (lit int32 4 3); do d <- (Ok 5); f_redenominate (denote defaults) int32 x d round_round); do y <- (lit int32 7 5); Ok (are_identical x y)), 398);
  ((do x <- (do x <- (lit int32 5 3); do d <- (Ok 5); f_redenominate (denote defaults) int32 x d round_round); do y <- (lit int32 8 5); Ok (are_identical x y)), 400);
  ((do x <- (do x <- (lit int32 (-4) 3); do d <- (Ok 5); f_redenominate (denote defaults) int32 x d round_round); do y <- (lit int32 (-7) 5); Ok (are_identical x y)), 402);
  ((do x <- (do x <- (lit int32 (-5) 3); do d <- (Ok 5); f_redenominate (denote defaults) int32 x d round_round); do y <- (lit int32 (-8) 5); Ok (are_identical x y)), 404);
  ((RIs (f_cmp (denote defaults) int32 int32 Eq) (f_pow2 int32 7) (Ok 128)), 410);
  ((RIs (f_cmp (denote defaults) int32 int32 Eq) (f_pow2 int32 0) (Ok 1)), 411);
  ((RRs (f_cmp (denote defaults) int32 int32 Eq) (f_pow2 int32 (-3)) (lit int32 1 8)), 412);
  ((RRs (f_cmp (denote defaults) uint32 uint32 Eq) (f_pow2 uint32 (-9)) (lit uint32 1 512)), 413);
  ((RIs (f_cmp (denote defaults) int32 int32 Eq) (f_pow int32 3 0) (Ok 1)), 418);
  ((RIs (f_cmp (denote defaults) int32 int32 Eq) (f_pow int32 3 1) (Ok 3)), 419);
  ((RIs (f_cmp (denote defaults) int32 int32 Eq) (f_pow int32 3 2) (Ok 9)), 420);
  ((RIs (f_cmp (denote defaults) int32 int32 Eq) (f_pow int32 3 3) (Ok 27)), 421);
  ((RIs (f_cmp (denote defaults) int32 int32 Eq) (f_pow int32 (-5) 8) (Ok 390625)), 422);
  ((RIs (f_cmp (denote defaults) int32 int32 Eq) (f_pow int32 (-5) 9) (Ok (-1953125))), 423);
  ((RRs (f_cmp (denote defaults) int32 int32 Eq) (f_pow int32 3 (-1)) (lit int32 1 3)), 424);
  ((RRs (f_cmp (denote defaults) int32 int32 Eq) (f_pow int32 3 (-2)) (lit int32 1 9)), 425);
  ((RRs (f_cmp (denote defaults) int32 int32 Eq) (f_pow int32 3 (-3)) (lit int32 1 27)), 426);
  ((RRs (f_cmp (denote defaults) uint32 uint32 Eq) (f_pow uint32 4 (-5)) (lit uint32 1 1024)), 427);
  ((RRs (f_cmp (denote defaults) int32 int32 Eq) (f_pow int32 (-5) (-8)) (lit int32 1 390625)), 428);
  ((RRs (f_cmp (denote defaults) int32 int32 Eq) (f_pow int32 (-5) (-9)) (lit int32 (-1) 1953125)), 429)
] = [].
Proof. vm_compute. reflexivity. Qed.

(** src/ieme/fraction_literals.test.cpp: 11 assertions. *)
Example upstream_fraction_literals : failures [
  ((do x <- (lit int32 3 4); do y <- (Ok (mkRaw 3 4)); Ok (are_identical x y)), 18);
  ((do x <- (lit int32 (-3) 4); do y <- (Ok (mkRaw (-3) 4)); Ok (are_identical x y)), 19);
  ((do x <- (litn int32 3 4); do y <- (Ok (mkRaw 3 (-4))); Ok (are_identical x y)), 20);
  ((do x <- (litn int32 (-3) 4); do y <- (Ok (mkRaw (-3) (-4))); Ok (are_identical x y)), 21);
  ((do x <- (do x <- (Ok 3); do y <- (do x <- (RIs (f_arith (denote defaults) int32 int32 Multiplies) (litn int32 4 3) (Ok 2)); do d <- (Ok (literal_fr 5)); literal_divide_fraction (denote defaults) int32 x d); f_arith (denote defaults) int32 int32 Plus (IR x y)); do y <- (Ok (mkRaw 37 15)); f_cmp (denote defaults) int32 int32 Eq (RR x y)), 37);
  ((RRs (f_cmp (denote defaults) int64 int32 Eq) (do o <- literal_dec [50; 46; 51]; match o with Some x => Ok x | None => UB LibPrecond end) (do x <- (Ok 2); do y <- (lit int32 3 10); f_arith (denote defaults) int32 int32 Plus (IR x y))), 43);
  ((RRs (f_cmp (denote defaults) int64 int64 Eq) (do o <- literal_dec [57; 52; 46; 51; 51; 50]; match o with Some x => Ok x | None => UB LibPrecond end) (do x <- (Ok 94); do y <- (lit int32 332 1000); f_arith (denote defaults) int64 int32 Plus (IR x y))), 44);
  ((RIs (f_cmp (denote defaults) int64 int32 Eq) (do o <- literal_dec [57; 46; 50; 50; 69; 43; 51]; match o with Some x => Ok x | None => UB LibPrecond end) (Ok 9220)), 45);
  ((RRs (f_cmp (denote defaults) int64 int64 Eq) (do o <- literal_dec [55; 46; 53; 52; 51; 69; 45; 49; 48]; match o with Some x => Ok x | None => UB LibPrecond end) (lit int64 7543 10000000000000)), 46);
  ((RRs (f_cmp (denote defaults) int64 int32 Eq) (do o <- literal_dec [48; 120; 67; 46; 65; 112; 50]; match o with Some x => Ok x | None => UB LibPrecond end) (lit int32 101 2)), 47);
  ((RRs (f_cmp (denote defaults) int64 int32 Eq) (do o <- literal_dec [48; 120; 67; 49; 46; 65; 49; 112; 45; 49; 48]; match o with Some x => Ok x | None => UB LibPrecond end) (lit int32 49569 262144)), 48)
] = [].
Proof. vm_compute. reflexivity. Qed.

(** src/ieme/floating_point.test.cpp: 92 assertions. *)
Example upstream_floating_point : failures [
  ((RIs (f_cmp (denote defaults) int32 int32 Eq) (to_fraction_float (denote defaults) int32 little (b32_of_bits 1103101952)) (Ok 24)), 15);
  ((RRs (f_cmp (denote defaults) int32 int32 Eq) (to_fraction_float (denote defaults) int32 little (b32_of_bits 1052770304)) (lit int32 3 8)), 16);
  ((do x <- (to_fraction_float (denote defaults) int32 little (b32_of_bits 3254812672)); do y <- (IRs (f_arith (denote defaults) int32 int32 Minus) (Ok (-32)) (lit int32 1 8)); f_cmp (denote defaults) int32 int32 Eq (RR x y)), 17);
  ((do x <- (to_fraction_float (denote defaults) int32 little (b32_of_bits 2143289344)); Ok (is_undefined x)), 18);
  ((RIs (f_cmp (denote defaults) int64 int32 Eq) (to_fraction_double (denote defaults) int64 little (b64_of_bits 4627448617123184640)) (Ok 24)), 20);
  ((RRs (f_cmp (denote defaults) int64 int32 Eq) (to_fraction_double (denote defaults) int64 little (b64_of_bits 4600427019358961664)) (lit int32 3 8)), 21);
  ((do x <- (to_fraction_double (denote defaults) int64 little (b64_of_bits 13853090045977690112)); do y <- (IRs (f_arith (denote defaults) int32 int32 Minus) (Ok (-32)) (lit int32 1 8)); f_cmp (denote defaults) int64 int32 Eq (RR x y)), 22);
  ((do x <- (to_fraction_float (denote defaults) int64 little (b32_of_bits 2143289344)); Ok (is_undefined x)), 23);
  ((do x <- (do x <- (lit int32 24 1); to_float int32 x); Ok ((fun y => bits_of_b32 y =? 1103101952) x)), 28);
  ((do x <- (do x <- (lit int32 3 8); to_float int32 x); Ok ((fun y => bits_of_b32 y =? 1052770304) x)), 29);
  ((do x <- (do x <- (IRs (f_arith (denote defaults) int32 int32 Minus) (Ok (-32)) (lit int32 1 8)); to_float int32 x); Ok ((fun y => bits_of_b32 y =? 3254812672) x)), 30);
  ((do x <- (do x <- (lit int32 24 1); to_double int32 x); Ok ((fun y => bits_of_b64 y =? 4627448617123184640) x)), 32);
  ((do x <- (do x <- (lit int32 3 8); to_double int32 x); Ok ((fun y => bits_of_b64 y =? 4600427019358961664) x)), 33);
  ((do x <- (do x <- (IRs (f_arith (denote defaults) int32 int32 Minus) (Ok (-32)) (lit int32 1 8)); to_double int32 x); Ok ((fun y => bits_of_b64 y =? 13853090045977690112) x)), 34);
  ((do x <- (do x <- (lit int32 24 1); to_long_double int32 x); Ok ((fun y => match B2FF 64 16384 y with F754_finite s m e => Bool.eqb s false && (m =? 13835058055282163712)%positive && (e =? (-59)) | _ => false end) x)), 36);
  ((do x <- (do x <- (lit int32 3 8); to_long_double int32 x); Ok ((fun y => match B2FF 64 16384 y with F754_finite s m e => Bool.eqb s false && (m =? 13835058055282163712)%positive && (e =? (-65)) | _ => false end) x)), 37);
  ((do x <- (do x <- (IRs (f_arith (denote defaults) int32 int32 Minus) (Ok (-32)) (lit int32 1 8)); to_long_double int32 x); Ok ((fun y => match B2FF 64 16384 y with F754_finite s m e => Bool.eqb s true && (m =? 9259400833873739776)%positive && (e =? (-58)) | _ => false end) x)), 38);
  ((RIs (f_cmp (denote defaults) int32 int32 Eq) (string_to_fraction (denote defaults) int32 [48; 46]) (Ok 0)), 44);
  ((RIs (f_cmp (denote defaults) int32 int32 Eq) (string_to_fraction (denote defaults) int32 [48; 46; 48]) (Ok 0)), 45);
  ((RIs (f_cmp (denote defaults) int32 int32 Eq) (string_to_fraction (denote defaults) int32 [46; 48]) (Ok 0)), 46);
  ((RIs (f_cmp (denote defaults) int32 int32 Eq) (string_to_fraction (denote defaults) int32 [53; 46]) (Ok 5)), 47);
  ((RIs (f_cmp (denote defaults) int32 int32 Eq) (string_to_fraction (denote defaults) int32 [53; 46; 48]) (Ok 5)), 48);
  ((RRs (f_cmp (denote defaults) int32 int32 Eq) (string_to_fraction (denote defaults) int32 [46; 53]) (lit int32 1 2)), 49);
  ((RRs (f_cmp (denote defaults) int32 int32 Eq) (string_to_fraction (denote defaults) int32 [53; 46; 53]) (do x <- (Ok 5); do y <- (lit int32 1 2); f_arith (denote defaults) int32 int32 Plus (IR x y))), 50);
  ((RRs (f_cmp (denote defaults) int32 int32 Eq) (string_to_fraction (denote defaults) int32 [53; 56; 46; 48; 50; 53]) (do x <- (Ok 58); do y <- (lit int32 1 40); f_arith (denote defaults) int32 int32 Plus (IR x y))), 51);
  ((RRs (f_cmp (denote defaults) int32 int32 Eq) (string_to_fraction (denote defaults) int32 [48; 46; 48; 55]) (lit int32 7 100)), 52);
  ((RIs (f_cmp (denote defaults) int32 int32 Eq) (string_to_fraction (denote defaults) int32 [48; 46; 48; 69; 49]) (Ok 0)), 53);
  ((RIs (f_cmp (denote defaults) int32 int32 Eq) (string_to_fraction (denote defaults) int32 [48; 46; 48; 101; 43; 49]) (Ok 0)), 54);
  ((RIs (f_cmp (denote defaults) int32 int32 Eq) (string_to_fraction (denote defaults) int32 [48; 46; 48; 69; 45; 49]) (Ok 0)), 55);
  ((RIs (f_cmp (denote defaults) int32 int32 Eq) (string_to_fraction (denote defaults) int32 [57; 46; 48; 101; 49]) (Ok 90)), 56);
  ((RIs (f_cmp (denote defaults) int32 int32 Eq) (string_to_fraction (denote defaults) int32 [57; 46; 48; 69; 43; 52]) (Ok 90000)), 57);
  ((RRs (f_cmp (denote defaults) int32 int32 Eq) (string_to_fraction (denote defaults) int32 [51; 57; 46; 48; 101; 45; 49]) (lit int32 39 10)), 58);
  ((RIs (f_cmp (denote defaults) int32 int32 Eq) (string_to_fraction (denote defaults) int32 [52; 46; 51; 69; 50]) (Ok 430)), 59);
  ((RRs (f_cmp (denote defaults) int64 int64 Eq) (string_to_fraction (denote defaults) int64 [52; 39; 57; 46; 51; 39; 57; 101; 45; 49; 39; 48]) (lit int64 4939 1000000000000)), 60);
  ((RIs (f_cmp (denote defaults) int32 int32 Eq) (string_to_fraction (denote defaults) int32 [48; 88; 48; 46; 112; 48]) (Ok 0)), 62);
  ((RIs (f_cmp (denote defaults) int32 int32 Eq) (string_to_fraction (denote defaults) int32 [48; 120; 48; 46; 48; 80; 48]) (Ok 0)), 63);
  ((RIs (f_cmp (denote defaults) int32 int32 Eq) (string_to_fraction (denote defaults) int32 [48; 120; 46; 48; 112; 48]) (Ok 0)), 64);
  ((RIs (f_cmp (denote defaults) int32 int32 Eq) (string_to_fraction (denote defaults) int32 [48; 120; 97; 46; 112; 48]) (Ok 10)), 65);
  ((RIs (f_cmp (denote defaults) int32 int32 Eq) (string_to_fraction (denote defaults) int32 [48; 88; 65; 46; 48; 80; 48]) (Ok 10)), 66);
  ((RRs (f_cmp (denote defaults) int32 int32 Eq) (string_to_fraction (denote defaults) int32 [48; 88; 46; 65; 80; 48]) (lit int32 5 8)), 67);
  ((RRs (f_cmp (denote defaults) int32 int32 Eq) (string_to_fraction (denote defaults) int32 [48; 120; 66; 46; 68; 112; 48]) (do x <- (Ok 11); do y <- (lit int32 13 16); f_arith (denote defaults) int32 int32 Plus (IR x y))), 68);
  ((RRs (f_cmp (denote defaults) int32 int32 Eq) (string_to_fraction (denote defaults) int32 [48; 88; 102; 53; 46; 48; 100; 69; 80; 48]) (do x <- (Ok 245); do y <- (lit int32 222 4096); f_arith (denote defaults) int32 int32 Plus (IR x y))), 70);
  ((RRs (f_cmp (denote defaults) int32 int32 Eq) (string_to_fraction (denote defaults) int32 [48; 120; 48; 46; 48; 55; 112; 48]) (lit int32 7 256)), 72);
  ((RIs (f_cmp (denote defaults) int32 int32 Eq) (string_to_fraction (denote defaults) int32 [48; 88; 48; 46; 48; 80; 49]) (Ok 0)), 73);
  ((RIs (f_cmp (denote defaults) int32 int32 Eq) (string_to_fraction (denote defaults) int32 [48; 120; 48; 46; 48; 112; 43; 49]) (Ok 0)), 74);
  ((RIs (f_cmp (denote defaults) int32 int32 Eq) (string_to_fraction (denote defaults) int32 [48; 88; 48; 46; 48; 80; 45; 49]) (Ok 0)), 75);
  ((RIs (f_cmp (denote defaults) int32 int32 Eq) (string_to_fraction (denote defaults) int32 [48; 120; 57; 46; 48; 112; 49]) (Ok 18)), 76);
  ((RIs (f_cmp (denote defaults) int32 int32 Eq) (string_to_fraction (denote defaults) int32 [48; 88; 57; 46; 48; 80; 43; 52]) (Ok 144)), 77);
  ((RRs (f_cmp (denote defaults) int32 int32 Eq) (string_to_fraction (denote defaults) int32 [48; 120; 68; 57; 46; 48; 112; 45; 49]) (lit int32 217 2)), 78);
  ((RRs (f_cmp (denote defaults) int32 int32 Eq) (string_to_fraction (denote defaults) int32 [48; 88; 67; 46; 65; 80; 50]) (lit int32 101 2)), 79);
  ((RRs (f_cmp (denote defaults) int32 int32 Eq) (string_to_fraction (denote defaults) int32 [48; 120; 67; 46; 65; 112; 45; 50]) (lit int32 101 32)), 80);
  ((RRs (f_cmp (denote defaults) int32 int32 Eq) (string_to_fraction (denote defaults) int32 [48; 120; 67; 39; 49; 46; 65; 39; 49; 80; 45; 49; 39; 48]) (lit int32 49569 262144)), 81);
  ((do x <- (string_to_fraction (denote defaults) int32 []); Ok (is_undefined x)), 84);
  ((do x <- (string_to_fraction (denote defaults) int32 [48]); Ok (is_undefined x)), 85);
  ((do x <- (string_to_fraction (denote defaults) int32 [46]); Ok (is_undefined x)), 86);
  ((do x <- (string_to_fraction (denote defaults) int32 [65; 66; 67; 68; 69; 70; 46]); Ok (is_undefined x)), 87);
  ((do x <- (string_to_fraction (denote defaults) int32 [45; 49; 46; 48]); Ok (is_undefined x)), 88);
  ((do x <- (string_to_fraction (denote defaults) int32 [49; 46; 48; 69]); Ok (is_undefined x)), 89);
  ((do x <- (string_to_fraction (denote defaults) int32 [49; 46; 48; 101; 43]); Ok (is_undefined x)), 90);
  ((do x <- (string_to_fraction (denote defaults) int32 [49; 46; 48; 69; 45]); Ok (is_undefined x)), 91);
  ((do x <- (string_to_fraction (denote defaults) int32 [49; 46; 48; 101; 65]); Ok (is_undefined x)), 92);
  ((do x <- (string_to_fraction (denote defaults) int32 [49; 46; 48; 69; 43; 100]); Ok (is_undefined x)), 93);
  ((do x <- (string_to_fraction (denote defaults) int32 [49; 46; 48; 101; 45; 66]); Ok (is_undefined x)), 94);
  ((do x <- (string_to_fraction (denote defaults) int32 [49; 46; 48; 80; 52]); Ok (is_undefined x)), 95);
  ((do x <- (string_to_fraction (denote defaults) int32 [49; 46; 48; 112; 45; 52]); Ok (is_undefined x)), 96);
  ((do x <- (string_to_fraction (denote defaults) int32 [49; 46; 48; 80; 43; 52]); Ok (is_undefined x)), 97);
  ((do x <- (string_to_fraction (denote defaults) int32 [122; 49; 46; 48]); Ok (is_undefined x)), 98);
  ((do x <- (string_to_fraction (denote defaults) int32 [49; 46; 48; 103]); Ok (is_undefined x)), 99);
  ((do x <- (string_to_fraction (denote defaults) int32 [101; 49; 46; 48; 101; 43; 52]); Ok (is_undefined x)), 100);
  ((do x <- (string_to_fraction (denote defaults) int32 [49; 46; 48; 69; 53; 114]); Ok (is_undefined x)), 101);
  ((do x <- (string_to_fraction (denote defaults) int32 [49; 46; 48; 101; 121; 53]); Ok (is_undefined x)), 102);
  ((do x <- (string_to_fraction (denote defaults) int32 [49; 46; 48; 76; 69; 53]); Ok (is_undefined x)), 103);
  ((do x <- (string_to_fraction (denote defaults) int32 [49; 46; 105; 48]); Ok (is_undefined x)), 104);
  ((do x <- (string_to_fraction (denote defaults) int32 [45; 48; 120; 49; 46; 48]); Ok (is_undefined x)), 105);
  ((do x <- (string_to_fraction (denote defaults) int32 [48; 120; 49; 46]); Ok (is_undefined x)), 106);
  ((do x <- (string_to_fraction (denote defaults) int32 [48; 120; 48; 46; 49]); Ok (is_undefined x)), 107);
  ((do x <- (string_to_fraction (denote defaults) int32 [48; 120; 49; 46; 48]); Ok (is_undefined x)), 108);
  ((do x <- (string_to_fraction (denote defaults) int32 [48; 120; 49; 46; 48; 112]); Ok (is_undefined x)), 109);
  ((do x <- (string_to_fraction (denote defaults) int32 [48; 120; 49; 46; 48; 80; 43]); Ok (is_undefined x)), 110);
  ((do x <- (string_to_fraction (denote defaults) int32 [48; 120; 49; 46; 48; 112; 45]); Ok (is_undefined x)), 111);
  ((do x <- (string_to_fraction (denote defaults) int32 [48; 120; 49; 46; 48; 69; 45; 52]); Ok (is_undefined x)), 112);
  ((do x <- (string_to_fraction (denote defaults) int32 [48; 120; 49; 46; 48; 101; 43; 52]); Ok (is_undefined x)), 113);
  ((do x <- (string_to_fraction (denote defaults) int32 [48; 120; 122; 49; 46; 48]); Ok (is_undefined x)), 114);
  ((do x <- (string_to_fraction (denote defaults) int32 [48; 120; 49; 46; 48; 103]); Ok (is_undefined x)), 115);
  ((do x <- (string_to_fraction (denote defaults) int32 [48; 120; 101; 49; 46; 48; 101; 43; 52]); Ok (is_undefined x)), 116);
  ((do x <- (string_to_fraction (denote defaults) int32 [48; 120; 49; 46; 48; 69; 53; 114]); Ok (is_undefined x)), 117);
  ((do x <- (string_to_fraction (denote defaults) int32 [48; 120; 49; 46; 48; 101; 121; 53]); Ok (is_undefined x)), 118);
  ((do x <- (string_to_fraction (denote defaults) int32 [48; 120; 49; 46; 48; 76; 69; 53]); Ok (is_undefined x)), 119);
  ((do x <- (string_to_fraction (denote defaults) int32 [48; 120; 49; 46; 105; 48]); Ok (is_undefined x)), 120);
  ((do x <- (string_to_fraction (denote defaults) int32 [79; 120; 49; 46; 48]); Ok (is_undefined x)), 121);
  ((do x <- (string_to_fraction (denote defaults) int32 [48; 106; 120; 49; 46; 48; 103]); Ok (is_undefined x)), 122);
  ((do x <- (string_to_fraction (denote defaults) int32 [48; 120; 117; 49; 46; 48; 69; 53; 114]); Ok (is_undefined x)), 123)
] = [].
Proof. vm_compute. reflexivity. Qed.

(** src/ieme/limits.test.cpp: 13 assertions.  The three lines listed are
    undefined: the default policy reduces its operands, and std::gcd requires the
    magnitude of the minimum value to be representable ([numeric.ops.gcd]). *)
Example upstream_limits : failures [
  ((RIs (f_cmp (denote defaults) int32 int32 Eq) (Ok (limits_max int32)) (Ok (rmax int32))), 17);
  ((RIs (f_cmp (denote defaults) int32 int32 Eq) (Ok (limits_min int32)) (Ok (rmin int32))), 18);
  ((do x <- (Ok (limits_smallest int32)); do y <- (do a <- (Ok 1); do b <- (Ok (rmax int32)); Ok (mkRaw a b)); f_cmp (denote defaults) int32 int32 Eq (RR x y)), 19);
  ((do x <- (Ok limits_undefined); Ok (is_undefined x)), 21);
  ((RRs (f_cmp (denote defaults) int32 int32 Eq) (Ok (nl_min int32)) (Ok (limits_min int32))), 61);
  ((RIs (f_cmp (denote defaults) int32 int32 Eq) (Ok (nl_lowest int32)) (Ok (rmin int32))), 63);
  ((RRs (f_cmp (denote defaults) int32 int32 Eq) (Ok (nl_max int32)) (Ok (limits_max int32))), 65);
  ((RRs (f_cmp (denote defaults) int32 int32 Eq) (Ok (nl_epsilon int32)) (Ok (limits_smallest int32))), 67);
  ((RIs (f_cmp (denote defaults) int32 int32 Eq) (Ok nl_round_error) (Ok 0)), 69);
  ((RIs (f_cmp (denote defaults) int32 int32 Eq) (Ok nl_infinity) (Ok 0)), 71);
  ((do x <- (Ok nl_quiet_NaN); do y <- (Ok limits_undefined); Ok (are_identical x y)), 73);
  ((RIs (f_cmp (denote defaults) int32 int32 Eq) (Ok nl_signaling_NaN) (Ok 0)), 75);
  ((RIs (f_cmp (denote defaults) int32 int32 Eq) (Ok nl_denorm_min) (Ok 0)), 77)
] = [18; 61; 63].
Proof. vm_compute. reflexivity. Qed.

(** src/ieme/hash.test.cpp: 12 assertions. *)
Example upstream_hash : failures [
  ((do x <- (do x <- (Ok (mkRaw (-3) 4)); Ok (hash_raw std_hash x)); do y <- (do x <- (Ok (mkRaw (-3) 4)); Ok (hash_raw std_hash x)); Ok (x =? y)), 15);
  ((do x <- (do x <- (Ok (mkRaw 23 222)); Ok (hash_raw std_hash x)); do y <- (do x <- (Ok (mkRaw 23 222)); Ok (hash_raw std_hash x)); Ok (x =? y)), 16);
  ((do x <- (do x <- (Ok (mkRaw (-3) 4)); Ok (hash_raw std_hash x)); do y <- (do x <- (Ok (mkRaw (-3) 4)); Ok (hash_raw std_hash x)); Ok (x =? y)), 17);
  ((do x <- (do x <- (Ok (mkRaw 23 222)); Ok (hash_raw std_hash x)); do y <- (do x <- (Ok (mkRaw 23 222)); Ok (hash_raw std_hash x)); Ok (x =? y)), 19);
  ((do x <- (do x <- (lit int32 (-3) 4); Ok (hash_raw std_hash x)); do y <- (do x <- (lit int32 (-3) 4); Ok (hash_raw std_hash x)); Ok (x =? y)), 25);
  ((do x <- (do x <- (lit int32 23 222); Ok (hash_raw std_hash x)); do y <- (do x <- (lit int32 23 222); Ok (hash_raw std_hash x)); Ok (x =? y)), 26);
  ((do x <- (do x <- (lit int32 (-3) 4); Ok (hash_raw std_hash x)); do y <- (do x <- (lit int32 (-3) 4); Ok (hash_raw std_hash x)); Ok (x =? y)), 27);
  ((do x <- (do x <- (lit int32 23 222); Ok (hash_raw std_hash x)); do y <- (do x <- (lit int32 23 222); Ok (hash_raw std_hash x)); Ok (x =? y)), 29);
  ((do x <- (do m <- (do w <- (Ok (-72)); do f <- (lit int32 3 4); mixed_make (denote defaults) int32 int32 w f); Ok (hash_mixed std_hash std_hash m)); do y <- (do m <- (do w <- (Ok (-72)); do f <- (lit int32 3 4); mixed_make (denote defaults) int32 int32 w f); Ok (hash_mixed std_hash std_hash m)); Ok (x =? y)), 35);
  ((do x <- (do m <- (do w <- (Ok 889); do f <- (lit int32 23 222); mixed_make (denote defaults) int32 int32 w f); Ok (hash_mixed std_hash std_hash m)); do y <- (do m <- (do w <- (Ok 889); do f <- (lit int32 23 222); mixed_make (denote defaults) int32 int32 w f); Ok (hash_mixed std_hash std_hash m)); Ok (x =? y)), 37);
  ((do x <- (do m <- (do w <- (Ok (-72)); do f <- (lit int32 3 4); mixed_make (denote defaults) int32 int32 w f); Ok (hash_mixed std_hash std_hash m)); do y <- (do m <- (do w <- (Ok (-72)); do f <- (lit int32 3 4); mixed_make (denote defaults) int32 int32 w f); Ok (hash_mixed std_hash std_hash m)); Ok (x =? y)), 39);
  ((do x <- (do m <- (do w <- (Ok 889); do f <- (lit int32 23 222); mixed_make (denote defaults) int32 int32 w f); Ok (hash_mixed std_hash std_hash m)); do y <- (do m <- (do w <- (Ok 889); do f <- (lit int32 23 222); mixed_make (denote defaults) int32 int32 w f); Ok (hash_mixed std_hash std_hash m)); Ok (x =? y)), 41)
] = [].
Proof. vm_compute. reflexivity. Qed.

(** src/ieme/mixed_number.test.cpp: 35 assertions. *)
Example upstream_mixed_number : failures [
  ((do x <- (Ok 0); do y <- (do m <- (Ok mixed_default); Ok (whole m)); Ok (x =? y)), 20);
  ((do x <- (do m <- (Ok mixed_default); Ok (fractional m)); do y <- (lit int32 0 1); Ok (are_identical x y)), 21);
  ((do x <- (Ok (-5)); do y <- (do m <- (do w <- (Ok (-5)); do f <- (lit int32 (-4) 5); mixed_make (denote defaults) int32 int32 w f); Ok (whole m)); Ok (x =? y)), 29);
  ((do x <- (do m <- (do w <- (Ok (-5)); do f <- (lit int32 (-4) 5); mixed_make (denote defaults) int32 int32 w f); Ok (fractional m)); do y <- (lit int32 (-4) 5); Ok (are_identical x y)), 30);
  ((do x <- (Ok 4); do y <- (do m <- (do w <- (Ok 5); do f <- (lit int32 (-4) 5); mixed_make (denote defaults) int32 int32 w f); Ok (whole m)); Ok (x =? y)), 39);
  ((do x <- (do m <- (do w <- (Ok 5); do f <- (lit int32 (-4) 5); mixed_make (denote defaults) int32 int32 w f); Ok (fractional m)); do y <- (lit int32 1 5); Ok (are_identical x y)), 40);
  ((do x <- (Ok (-4)); do y <- (do m <- (do w <- (Ok (-5)); do f <- (lit int32 4 5); mixed_make (denote defaults) int32 int32 w f); Ok (whole m)); Ok (x =? y)), 44);
  ((do x <- (do m <- (do w <- (Ok (-5)); do f <- (lit int32 4 5); mixed_make (denote defaults) int32 int32 w f); Ok (fractional m)); do y <- (lit int32 (-1) 5); Ok (are_identical x y)), 45);
  ((do x <- (Ok 4); do y <- (do m <- (do w <- (Ok 3); do f <- (lit int32 6 5); mixed_make (denote defaults) int32 int32 w f); Ok (whole m)); Ok (x =? y)), 49);
  ((do x <- (do m <- (do w <- (Ok 3); do f <- (lit int32 6 5); mixed_make (denote defaults) int32 int32 w f); Ok (fractional m)); do y <- (lit int32 1 5); Ok (are_identical x y)), 50);
  ((do x <- (Ok (-4)); do y <- (do m <- (do w <- (Ok (-3)); do f <- (lit int32 (-6) 5); mixed_make (denote defaults) int32 int32 w f); Ok (whole m)); Ok (x =? y)), 54);
  ((do x <- (do m <- (do w <- (Ok (-3)); do f <- (lit int32 (-6) 5); mixed_make (denote defaults) int32 int32 w f); Ok (fractional m)); do y <- (lit int32 (-1) 5); Ok (are_identical x y)), 55);
  ((do x <- (Ok 4); do y <- (do m <- (do w <- (Ok 7); do f <- (lit int32 (-14) 5); mixed_make (denote defaults) int32 int32 w f); Ok (whole m)); Ok (x =? y)), 59);
  ((do x <- (do m <- (do w <- (Ok 7); do f <- (lit int32 (-14) 5); mixed_make (denote defaults) int32 int32 w f); Ok (fractional m)); do y <- (lit int32 1 5); Ok (are_identical x y)), 60);
  ((do x <- (Ok (-4)); do y <- (do m <- (do w <- (Ok (-7)); do f <- (lit int32 14 5); mixed_make (denote defaults) int32 int32 w f); Ok (whole m)); Ok (x =? y)), 64);
  ((do x <- (do m <- (do w <- (Ok (-7)); do f <- (lit int32 14 5); mixed_make (denote defaults) int32 int32 w f); Ok (fractional m)); do y <- (lit int32 (-1) 5); Ok (are_identical x y)), 65);
  ((do x <- (Ok 2); do y <- (do m <- (do x <- (Ok 2); mixed_make (denote defaults) int32 int32 x f_default); Ok (whole m)); Ok (x =? y)), 73);
  ((do x <- (do m <- (do x <- (Ok 2); mixed_make (denote defaults) int32 int32 x f_default); Ok (fractional m)); do y <- (lit int32 0 1); Ok (are_identical x y)), 74);
  ((do x <- (Ok (-2)); do y <- (do m <- (do x <- (lit int32 (-11) 4); mixed_of_fraction (denote defaults) int32 int32 int32 x); Ok (whole m)); Ok (x =? y)), 81);
  ((do x <- (do m <- (do x <- (lit int32 (-11) 4); mixed_of_fraction (denote defaults) int32 int32 int32 x); Ok (fractional m)); do y <- (lit int32 (-3) 4); Ok (are_identical x y)), 82);
  ((do x <- (do m <- (do w <- (Ok (-3)); do f <- (lit int32 (-1) 9); mixed_make (denote defaults) int32 int32 w f); mixed_as_fraction (denote defaults) int32 int32 m); do y <- (lit int32 (-28) 9); Ok (are_identical x y)), 89);
  ((do x <- (Ok 7); do y <- (do m <- (do m <- (do w <- (Ok 7); do f <- (lit int32 4 9); mixed_make (denote defaults) int32 int32 w f); Ok (mixed_posate m)); Ok (whole m)); Ok (x =? y)), 96);
  ((do x <- (do m <- (do m <- (do w <- (Ok 7); do f <- (lit int32 4 9); mixed_make (denote defaults) int32 int32 w f); Ok (mixed_posate m)); Ok (fractional m)); do y <- (lit int32 4 9); Ok (are_identical x y)), 97);
  ((do x <- (Ok (-7)); do y <- (do m <- (do m <- (do w <- (Ok 7); do f <- (lit int32 4 9); mixed_make (denote defaults) int32 int32 w f); mixed_negate (denote defaults) int32 int32 m); Ok (whole m)); Ok (x =? y)), 104);
  ((do x <- (do m <- (do m <- (do w <- (Ok 7); do f <- (lit int32 4 9); mixed_make (denote defaults) int32 int32 w f); mixed_negate (denote defaults) int32 int32 m); Ok (fractional m)); do y <- (lit int32 (-4) 9); Ok (are_identical x y)), 105);
  ((do x <- (Ok 10); do y <- (do m <- (do x <- (do w <- (Ok 8); do f <- (lit int32 1 4); mixed_make (denote defaults) int32 int32 w f); do y <- (Ok 2); mixed_plus_whole (denote defaults) int32 int32 int32 x y); Ok (whole m)); Ok (x =? y)), 112);
  ((do x <- (do m <- (do x <- (do w <- (Ok 8); do f <- (lit int32 1 4); mixed_make (denote defaults) int32 int32 w f); do y <- (Ok 2); mixed_plus_whole (denote defaults) int32 int32 int32 x y); Ok (fractional m)); do y <- (lit int32 1 4); f_cmp (denote defaults) int32 int32 Eq (RR x y)), 113);
  ((do x <- (Ok 10); do y <- (do m <- (do x <- (Ok 2); do y <- (do w <- (Ok 8); do f <- (lit int32 1 4); mixed_make (denote defaults) int32 int32 w f); whole_plus_mixed (denote defaults) int32 int32 int32 x y); Ok (whole m)); Ok (x =? y)), 117);
  ((do x <- (do m <- (do x <- (Ok 2); do y <- (do w <- (Ok 8); do f <- (lit int32 1 4); mixed_make (denote defaults) int32 int32 w f); whole_plus_mixed (denote defaults) int32 int32 int32 x y); Ok (fractional m)); do y <- (lit int32 1 4); f_cmp (denote defaults) int32 int32 Eq (RR x y)), 118);
  ((do x <- (Ok 10); do y <- (do m <- (do x <- (do w <- (Ok 8); do f <- (lit int32 3 4); mixed_make (denote defaults) int32 int32 w f); do y <- (lit int32 5 3); mixed_plus_fraction (denote defaults) int32 int32 int32 x y); Ok (whole m)); Ok (x =? y)), 125);
  ((do x <- (do m <- (do x <- (do w <- (Ok 8); do f <- (lit int32 3 4); mixed_make (denote defaults) int32 int32 w f); do y <- (lit int32 5 3); mixed_plus_fraction (denote defaults) int32 int32 int32 x y); Ok (fractional m)); do y <- (lit int32 5 12); f_cmp (denote defaults) int32 int32 Eq (RR x y)), 126);
  ((do x <- (Ok (-1)); do y <- (do m <- (do x <- (lit int32 (-3) 2); do y <- (do w <- (Ok 0); do f <- (lit int32 1 4); mixed_make (denote defaults) int32 int32 w f); fraction_plus_mixed (denote defaults) int32 int32 int32 x y); Ok (whole m)); Ok (x =? y)), 130);
  ((do x <- (do m <- (do x <- (lit int32 (-3) 2); do y <- (do w <- (Ok 0); do f <- (lit int32 1 4); mixed_make (denote defaults) int32 int32 w f); fraction_plus_mixed (denote defaults) int32 int32 int32 x y); Ok (fractional m)); do y <- (lit int32 (-1) 4); f_cmp (denote defaults) int32 int32 Eq (RR x y)), 131);
  ((do x <- (Ok 1); do y <- (do m <- (do x <- (do w <- (Ok 3); do f <- (lit int32 4 5); mixed_make (denote defaults) int32 int32 w f); do y <- (do w <- (Ok (-2)); do f <- (lit int32 (-1) 2); mixed_make (denote defaults) int32 int32 w f); mixed_plus (denote defaults) int32 int32 int32 int32 x y); Ok (whole m)); Ok (x =? y)), 138);
  ((do x <- (do m <- (do x <- (do w <- (Ok 3); do f <- (lit int32 4 5); mixed_make (denote defaults) int32 int32 w f); do y <- (do w <- (Ok (-2)); do f <- (lit int32 (-1) 2); mixed_make (denote defaults) int32 int32 w f); mixed_plus (denote defaults) int32 int32 int32 int32 x y); Ok (fractional m)); do y <- (lit int32 3 10); f_cmp (denote defaults) int32 int32 Eq (RR x y)), 139)
] = [].
Proof. vm_compute. reflexivity. Qed.

(** src/ieme/math_utilities.test.cpp: 11 assertions. *)
Example upstream_math_utilities : failures [
  ((do x <- (Ok 5); do y <- (do x <- (Ok 5); mu_abs int32 x); Ok (x =? y)), 14);
  ((do x <- (Ok 0); do y <- (do x <- (Ok 0); mu_abs int32 x); Ok (x =? y)), 15);
  ((do x <- (Ok 5); do y <- (do x <- (Ok (-5)); mu_abs int32 x); Ok (x =? y)), 16);
  ((do x <- (Ok 1); do y <- (mu_pow2 int32 0); Ok (x =? y)), 21);
  ((do x <- (Ok 1024); do y <- (mu_pow2 int32 10); Ok (x =? y)), 22);
  ((do x <- (Ok 1); do y <- (mu_pow int32 3 0); Ok (x =? y)), 28);
  ((do x <- (Ok 3); do y <- (mu_pow int32 3 1); Ok (x =? y)), 29);
  ((do x <- (Ok 9); do y <- (mu_pow int32 3 2); Ok (x =? y)), 30);
  ((do x <- (Ok 27); do y <- (mu_pow int32 3 3); Ok (x =? y)), 31);
  ((do x <- (Ok 390625); do y <- (mu_pow int32 (-5) 8); Ok (x =? y)), 32);
  ((do x <- (Ok (-1953125)); do y <- (mu_pow int32 (-5) 9); Ok (x =? y)), 33)
] = [].
Proof. vm_compute. reflexivity. Qed.

(** src/ieme/ops.test.cpp: 240 assertions. *)
Definition ops_tests (p : policy) : list (res bool * Z) := [
  ((RRs (p_cmp p int32 Eq) (Ok (mkRaw 3 4)) (Ok (mkRaw 3 4))), 34);
  ((do b <- (RRs (p_cmp p int32 Ne) (Ok (mkRaw 3 4)) (Ok (mkRaw 3 4))); Ok (negb b)), 35);
  ((do x <- (Ok (mkRaw (-3) 4)); do y <- (Ok (mkRaw (-3) 4)); p_cmp p int32 Eq (RR x y)), 37);
  ((do b <- (do x <- (Ok (mkRaw (-3) 4)); do y <- (Ok (mkRaw (-3) 4)); p_cmp p int32 Ne (RR x y)); Ok (negb b)), 38);
  ((do x <- (Ok (mkRaw 3 4)); do y <- (Ok (mkRaw (-3) (-4))); p_cmp p int32 Eq (RR x y)), 40);
  ((do b <- (do x <- (Ok (mkRaw 3 4)); do y <- (Ok (mkRaw (-3) (-4))); p_cmp p int32 Ne (RR x y)); Ok (negb b)), 41);
  ((do x <- (Ok (mkRaw (-3) 4)); do y <- (Ok (mkRaw 3 (-4))); p_cmp p int32 Eq (RR x y)), 43);
  ((do b <- (do x <- (Ok (mkRaw (-3) 4)); do y <- (Ok (mkRaw 3 (-4))); p_cmp p int32 Ne (RR x y)); Ok (negb b)), 44);
  ((RRs (p_cmp p int32 Eq) (Ok (mkRaw 6 8)) (Ok (mkRaw 3 4))), 46);
  ((do b <- (RRs (p_cmp p int32 Ne) (Ok (mkRaw 6 8)) (Ok (mkRaw 3 4))); Ok (negb b)), 47);
  ((do x <- (Ok (mkRaw (-6) 8)); do y <- (Ok (mkRaw (-3) 4)); p_cmp p int32 Eq (RR x y)), 49);
  ((do b <- (do x <- (Ok (mkRaw (-6) 8)); do y <- (Ok (mkRaw (-3) 4)); p_cmp p int32 Ne (RR x y)); Ok (negb b)), 50);
  ((RIs (p_cmp p int32 Eq) (Ok (mkRaw 6 3)) (Ok 2)), 52);
  ((do b <- (RIs (p_cmp p int32 Ne) (Ok (mkRaw 6 3)) (Ok 2)); Ok (negb b)), 53);
  ((do x <- (Ok (mkRaw (-6) 3)); do y <- (Ok (-2)); p_cmp p int32 Eq (RI x y)), 55);
  ((do b <- (do x <- (Ok (mkRaw (-6) 3)); do y <- (Ok (-2)); p_cmp p int32 Ne (RI x y)); Ok (negb b)), 56);
  ((IRs (p_cmp p int32 Eq) (Ok 2) (Ok (mkRaw 6 3))), 58);
  ((do b <- (IRs (p_cmp p int32 Ne) (Ok 2) (Ok (mkRaw 6 3))); Ok (negb b)), 59);
  ((do x <- (Ok (-2)); do y <- (Ok (mkRaw (-6) 3)); p_cmp p int32 Eq (IR x y)), 61);
  ((do b <- (do x <- (Ok (-2)); do y <- (Ok (mkRaw (-6) 3)); p_cmp p int32 Ne (IR x y)); Ok (negb b)), 62);
  ((do b <- (RRs (p_cmp p int32 Eq) (Ok (mkRaw 5 8)) (Ok (mkRaw 3 4))); Ok (negb b)), 64);
  ((RRs (p_cmp p int32 Ne) (Ok (mkRaw 5 8)) (Ok (mkRaw 3 4))), 65);
  ((do b <- (do x <- (Ok (mkRaw (-5) 8)); do y <- (Ok (mkRaw (-3) 4)); p_cmp p int32 Eq (RR x y)); Ok (negb b)), 67);
  ((do x <- (Ok (mkRaw (-5) 8)); do y <- (Ok (mkRaw (-3) 4)); p_cmp p int32 Ne (RR x y)), 68);
  ((do b <- (RIs (p_cmp p int32 Eq) (Ok (mkRaw 6 3)) (Ok 5)); Ok (negb b)), 70);
  ((RIs (p_cmp p int32 Ne) (Ok (mkRaw 6 3)) (Ok 5)), 71);
  ((do b <- (do x <- (Ok (mkRaw (-6) 3)); do y <- (Ok (-5)); p_cmp p int32 Eq (RI x y)); Ok (negb b)), 73);
  ((do x <- (Ok (mkRaw (-6) 3)); do y <- (Ok (-5)); p_cmp p int32 Ne (RI x y)), 74);
  ((do b <- (IRs (p_cmp p int32 Eq) (Ok 5) (Ok (mkRaw 6 3))); Ok (negb b)), 76);
  ((IRs (p_cmp p int32 Ne) (Ok 5) (Ok (mkRaw 6 3))), 77);
  ((do b <- (do x <- (Ok (-5)); do y <- (Ok (mkRaw (-6) 3)); p_cmp p int32 Eq (IR x y)); Ok (negb b)), 79);
  ((do x <- (Ok (-5)); do y <- (Ok (mkRaw (-6) 3)); p_cmp p int32 Ne (IR x y)), 80);
  ((do b <- (do x <- (Ok (mkRaw (-5) 0)); do y <- (Ok (mkRaw 0 1)); p_cmp p int32 Eq (RR x y)); Ok (negb b)), 82);
  ((do x <- (Ok (mkRaw (-5) 0)); do y <- (Ok (mkRaw 0 1)); p_cmp p int32 Ne (RR x y)), 83);
  ((do b <- (do x <- (Ok (mkRaw 0 1)); do y <- (Ok (mkRaw (-5) 0)); p_cmp p int32 Eq (RR x y)); Ok (negb b)), 85);
  ((do x <- (Ok (mkRaw 0 1)); do y <- (Ok (mkRaw (-5) 0)); p_cmp p int32 Ne (RR x y)), 86);
  ((do b <- (do x <- (Ok (mkRaw (-5) 0)); do y <- (Ok 2); p_cmp p int32 Eq (RI x y)); Ok (negb b)), 88);
  ((do x <- (Ok (mkRaw (-5) 0)); do y <- (Ok 2); p_cmp p int32 Ne (RI x y)), 89);
  ((do b <- (do x <- (Ok 2); do y <- (Ok (mkRaw (-5) 0)); p_cmp p int32 Eq (IR x y)); Ok (negb b)), 91);
  ((do x <- (Ok 2); do y <- (Ok (mkRaw (-5) 0)); p_cmp p int32 Ne (IR x y)), 92);
  ((do b <- (do x <- (Ok (mkRaw (-5) 0)); do y <- (Ok (mkRaw (-5) 0)); p_cmp p int32 Eq (RR x y)); Ok (negb b)), 94);
  ((do x <- (Ok (mkRaw (-5) 0)); do y <- (Ok (mkRaw (-5) 0)); p_cmp p int32 Ne (RR x y)), 95);
  ((do b <- (RRs (p_cmp p int32 Lt) (Ok (mkRaw 3 4)) (Ok (mkRaw 3 4))); Ok (negb b)), 100);
  ((RRs (p_cmp p int32 Le) (Ok (mkRaw 3 4)) (Ok (mkRaw 3 4))), 101);
  ((do b <- (RRs (p_cmp p int32 Gt) (Ok (mkRaw 3 4)) (Ok (mkRaw 3 4))); Ok (negb b)), 102);
  ((RRs (p_cmp p int32 Ge) (Ok (mkRaw 3 4)) (Ok (mkRaw 3 4))), 103);
  ((do b <- (do x <- (Ok (mkRaw (-3) 4)); do y <- (Ok (mkRaw (-3) 4)); p_cmp p int32 Lt (RR x y)); Ok (negb b)), 105);
  ((do x <- (Ok (mkRaw (-3) 4)); do y <- (Ok (mkRaw (-3) 4)); p_cmp p int32 Le (RR x y)), 106);
  ((do b <- (do x <- (Ok (mkRaw (-3) 4)); do y <- (Ok (mkRaw (-3) 4)); p_cmp p int32 Gt (RR x y)); Ok (negb b)), 107);
  ((do x <- (Ok (mkRaw (-3) 4)); do y <- (Ok (mkRaw (-3) 4)); p_cmp p int32 Ge (RR x y)), 108);
  ((do b <- (do x <- (Ok (mkRaw 3 4)); do y <- (Ok (mkRaw (-3) (-4))); p_cmp p int32 Lt (RR x y)); Ok (negb b)), 110);
  ((do x <- (Ok (mkRaw 3 4)); do y <- (Ok (mkRaw (-3) (-4))); p_cmp p int32 Le (RR x y)), 111);
  ((do b <- (do x <- (Ok (mkRaw 3 4)); do y <- (Ok (mkRaw (-3) (-4))); p_cmp p int32 Gt (RR x y)); Ok (negb b)), 112);
  ((do x <- (Ok (mkRaw 3 4)); do y <- (Ok (mkRaw (-3) (-4))); p_cmp p int32 Ge (RR x y)), 113);
  ((do b <- (do x <- (Ok (mkRaw (-3) 4)); do y <- (Ok (mkRaw 3 (-4))); p_cmp p int32 Lt (RR x y)); Ok (negb b)), 115);
  ((do x <- (Ok (mkRaw (-3) 4)); do y <- (Ok (mkRaw 3 (-4))); p_cmp p int32 Le (RR x y)), 116);
  ((do b <- (do x <- (Ok (mkRaw (-3) 4)); do y <- (Ok (mkRaw 3 (-4))); p_cmp p int32 Gt (RR x y)); Ok (negb b)), 117);
  ((do x <- (Ok (mkRaw (-3) 4)); do y <- (Ok (mkRaw 3 (-4))); p_cmp p int32 Ge (RR x y)), 118);
  ((do b <- (RRs (p_cmp p int32 Lt) (Ok (mkRaw 6 8)) (Ok (mkRaw 3 4))); Ok (negb b)), 120);
  ((RRs (p_cmp p int32 Le) (Ok (mkRaw 6 8)) (Ok (mkRaw 3 4))), 121);
  ((do b <- (RRs (p_cmp p int32 Gt) (Ok (mkRaw 6 8)) (Ok (mkRaw 3 4))); Ok (negb b)), 122);
  ((RRs (p_cmp p int32 Ge) (Ok (mkRaw 6 8)) (Ok (mkRaw 3 4))), 123);
  ((do b <- (do x <- (Ok (mkRaw (-6) 8)); do y <- (Ok (mkRaw (-3) 4)); p_cmp p int32 Lt (RR x y)); Ok (negb b)), 125);
  ((do x <- (Ok (mkRaw (-6) 8)); do y <- (Ok (mkRaw (-3) 4)); p_cmp p int32 Le (RR x y)), 126);
  ((do b <- (do x <- (Ok (mkRaw (-6) 8)); do y <- (Ok (mkRaw (-3) 4)); p_cmp p int32 Gt (RR x y)); Ok (negb b)), 127);
  ((do x <- (Ok (mkRaw (-6) 8)); do y <- (Ok (mkRaw (-3) 4)); p_cmp p int32 Ge (RR x y)), 128);
  ((do b <- (RIs (p_cmp p int32 Lt) (Ok (mkRaw 6 3)) (Ok 2)); Ok (negb b)), 130);
  ((RIs (p_cmp p int32 Le) (Ok (mkRaw 6 3)) (Ok 2)), 131);
  ((do b <- (RIs (p_cmp p int32 Gt) (Ok (mkRaw 6 3)) (Ok 2)); Ok (negb b)), 132);
  ((RIs (p_cmp p int32 Ge) (Ok (mkRaw 6 3)) (Ok 2)), 133);
  ((do b <- (do x <- (Ok (mkRaw (-6) 3)); do y <- (Ok (-2)); p_cmp p int32 Lt (RI x y)); Ok (negb b)), 135);
  ((do x <- (Ok (mkRaw (-6) 3)); do y <- (Ok (-2)); p_cmp p int32 Le (RI x y)), 136);
  ((do b <- (do x <- (Ok (mkRaw (-6) 3)); do y <- (Ok (-2)); p_cmp p int32 Gt (RI x y)); Ok (negb b)), 137);
  ((do x <- (Ok (mkRaw (-6) 3)); do y <- (Ok (-2)); p_cmp p int32 Ge (RI x y)), 138);
  ((do b <- (IRs (p_cmp p int32 Lt) (Ok 2) (Ok (mkRaw 6 3))); Ok (negb b)), 140);
  ((IRs (p_cmp p int32 Le) (Ok 2) (Ok (mkRaw 6 3))), 141);
  ((do b <- (IRs (p_cmp p int32 Gt) (Ok 2) (Ok (mkRaw 6 3))); Ok (negb b)), 142);
  ((IRs (p_cmp p int32 Ge) (Ok 2) (Ok (mkRaw 6 3))), 143);
  ((do b <- (do x <- (Ok (-2)); do y <- (Ok (mkRaw (-6) 3)); p_cmp p int32 Lt (IR x y)); Ok (negb b)), 145);
  ((do x <- (Ok (-2)); do y <- (Ok (mkRaw (-6) 3)); p_cmp p int32 Le (IR x y)), 146);
  ((do b <- (do x <- (Ok (-2)); do y <- (Ok (mkRaw (-6) 3)); p_cmp p int32 Gt (IR x y)); Ok (negb b)), 147);
  ((do x <- (Ok (-2)); do y <- (Ok (mkRaw (-6) 3)); p_cmp p int32 Ge (IR x y)), 148);
  ((RRs (p_cmp p int32 Lt) (Ok (mkRaw 1 4)) (Ok (mkRaw 3 4))), 150);
  ((RRs (p_cmp p int32 Le) (Ok (mkRaw 1 4)) (Ok (mkRaw 3 4))), 151);
  ((do b <- (RRs (p_cmp p int32 Gt) (Ok (mkRaw 1 4)) (Ok (mkRaw 3 4))); Ok (negb b)), 152);
  ((do b <- (RRs (p_cmp p int32 Ge) (Ok (mkRaw 1 4)) (Ok (mkRaw 3 4))); Ok (negb b)), 153);
  ((do x <- (Ok (mkRaw (-3) 4)); do y <- (Ok (mkRaw (-1) 4)); p_cmp p int32 Lt (RR x y)), 155);
  ((do x <- (Ok (mkRaw (-3) 4)); do y <- (Ok (mkRaw (-1) 4)); p_cmp p int32 Le (RR x y)), 156);
  ((do b <- (do x <- (Ok (mkRaw (-3) 4)); do y <- (Ok (mkRaw (-1) 4)); p_cmp p int32 Gt (RR x y)); Ok (negb b)), 157);
  ((do b <- (do x <- (Ok (mkRaw (-3) 4)); do y <- (Ok (mkRaw (-1) 4)); p_cmp p int32 Ge (RR x y)); Ok (negb b)), 158);
  ((RRs (p_cmp p int32 Lt) (Ok (mkRaw 1 2)) (Ok (mkRaw 3 4))), 160);
  ((RRs (p_cmp p int32 Le) (Ok (mkRaw 1 2)) (Ok (mkRaw 3 4))), 161);
  ((do b <- (RRs (p_cmp p int32 Gt) (Ok (mkRaw 1 2)) (Ok (mkRaw 3 4))); Ok (negb b)), 162);
  ((do b <- (RRs (p_cmp p int32 Ge) (Ok (mkRaw 1 2)) (Ok (mkRaw 3 4))); Ok (negb b)), 163);
  ((do x <- (Ok (mkRaw (-3) 4)); do y <- (Ok (mkRaw (-1) 2)); p_cmp p int32 Lt (RR x y)), 165);
  ((do x <- (Ok (mkRaw (-3) 4)); do y <- (Ok (mkRaw (-1) 2)); p_cmp p int32 Le (RR x y)), 166);
  ((do b <- (do x <- (Ok (mkRaw (-3) 4)); do y <- (Ok (mkRaw (-1) 2)); p_cmp p int32 Gt (RR x y)); Ok (negb b)), 167);
  ((do b <- (do x <- (Ok (mkRaw (-3) 4)); do y <- (Ok (mkRaw (-1) 2)); p_cmp p int32 Ge (RR x y)); Ok (negb b)), 168);
  ((RIs (p_cmp p int32 Lt) (Ok (mkRaw 7 3)) (Ok 3)), 170);
  ((RIs (p_cmp p int32 Le) (Ok (mkRaw 7 3)) (Ok 3)), 171);
  ((do b <- (RIs (p_cmp p int32 Gt) (Ok (mkRaw 7 3)) (Ok 3)); Ok (negb b)), 172);
  ((do b <- (RIs (p_cmp p int32 Ge) (Ok (mkRaw 7 3)) (Ok 3)); Ok (negb b)), 173);
  ((do x <- (Ok (mkRaw (-7) 3)); do y <- (Ok (-2)); p_cmp p int32 Lt (RI x y)), 175);
  ((do x <- (Ok (mkRaw (-7) 3)); do y <- (Ok (-2)); p_cmp p int32 Le (RI x y)), 176);
  ((do b <- (do x <- (Ok (mkRaw (-7) 3)); do y <- (Ok (-2)); p_cmp p int32 Gt (RI x y)); Ok (negb b)), 177);
  ((do b <- (do x <- (Ok (mkRaw (-7) 3)); do y <- (Ok (-2)); p_cmp p int32 Ge (RI x y)); Ok (negb b)), 178);
  ((IRs (p_cmp p int32 Lt) (Ok 2) (Ok (mkRaw 7 3))), 180);
  ((IRs (p_cmp p int32 Le) (Ok 2) (Ok (mkRaw 7 3))), 181);
  ((do b <- (IRs (p_cmp p int32 Gt) (Ok 2) (Ok (mkRaw 7 3))); Ok (negb b)), 182);
  ((do b <- (IRs (p_cmp p int32 Ge) (Ok 2) (Ok (mkRaw 7 3))); Ok (negb b)), 183);
  ((do x <- (Ok (-3)); do y <- (Ok (mkRaw (-7) 3)); p_cmp p int32 Lt (IR x y)), 185);
  ((do x <- (Ok (-3)); do y <- (Ok (mkRaw (-7) 3)); p_cmp p int32 Le (IR x y)), 186);
  ((do b <- (do x <- (Ok (-3)); do y <- (Ok (mkRaw (-7) 3)); p_cmp p int32 Gt (IR x y)); Ok (negb b)), 187);
  ((do b <- (do x <- (Ok (-3)); do y <- (Ok (mkRaw (-7) 3)); p_cmp p int32 Ge (IR x y)); Ok (negb b)), 188);
  ((do b <- (RRs (p_cmp p int32 Lt) (Ok (mkRaw 3 4)) (Ok (mkRaw 1 4))); Ok (negb b)), 190);
  ((do b <- (RRs (p_cmp p int32 Le) (Ok (mkRaw 3 4)) (Ok (mkRaw 1 4))); Ok (negb b)), 191);
  ((RRs (p_cmp p int32 Gt) (Ok (mkRaw 3 4)) (Ok (mkRaw 1 4))), 192);
  ((RRs (p_cmp p int32 Ge) (Ok (mkRaw 3 4)) (Ok (mkRaw 1 4))), 193);
  ((do b <- (do x <- (Ok (mkRaw (-1) 4)); do y <- (Ok (mkRaw (-3) 4)); p_cmp p int32 Lt (RR x y)); Ok (negb b)), 195);
  ((do b <- (do x <- (Ok (mkRaw (-1) 4)); do y <- (Ok (mkRaw (-3) 4)); p_cmp p int32 Le (RR x y)); Ok (negb b)), 196);
  ((do x <- (Ok (mkRaw (-1) 4)); do y <- (Ok (mkRaw (-3) 4)); p_cmp p int32 Gt (RR x y)), 197);
  ((do x <- (Ok (mkRaw (-1) 4)); do y <- (Ok (mkRaw (-3) 4)); p_cmp p int32 Ge (RR x y)), 198);
  ((do b <- (RRs (p_cmp p int32 Lt) (Ok (mkRaw 3 4)) (Ok (mkRaw 1 2))); Ok (negb b)), 200);
  ((do b <- (RRs (p_cmp p int32 Le) (Ok (mkRaw 3 4)) (Ok (mkRaw 1 2))); Ok (negb b)), 201);
  ((RRs (p_cmp p int32 Gt) (Ok (mkRaw 3 4)) (Ok (mkRaw 1 2))), 202);
  ((RRs (p_cmp p int32 Ge) (Ok (mkRaw 3 4)) (Ok (mkRaw 1 2))), 203);
  ((do b <- (do x <- (Ok (mkRaw (-1) 2)); do y <- (Ok (mkRaw (-3) 4)); p_cmp p int32 Lt (RR x y)); Ok (negb b)), 205);
  ((do b <- (do x <- (Ok (mkRaw (-1) 2)); do y <- (Ok (mkRaw (-3) 4)); p_cmp p int32 Le (RR x y)); Ok (negb b)), 206);
  ((do x <- (Ok (mkRaw (-1) 2)); do y <- (Ok (mkRaw (-3) 4)); p_cmp p int32 Gt (RR x y)), 207);
  ((do x <- (Ok (mkRaw (-1) 2)); do y <- (Ok (mkRaw (-3) 4)); p_cmp p int32 Ge (RR x y)), 208);
  ((do b <- (RIs (p_cmp p int32 Lt) (Ok (mkRaw 7 3)) (Ok 2)); Ok (negb b)), 210);
  ((do b <- (RIs (p_cmp p int32 Le) (Ok (mkRaw 7 3)) (Ok 2)); Ok (negb b)), 211);
  ((RIs (p_cmp p int32 Gt) (Ok (mkRaw 7 3)) (Ok 2)), 212);
  ((RIs (p_cmp p int32 Ge) (Ok (mkRaw 7 3)) (Ok 2)), 213);
  ((do b <- (do x <- (Ok (mkRaw (-7) 3)); do y <- (Ok (-3)); p_cmp p int32 Lt (RI x y)); Ok (negb b)), 215);
  ((do b <- (do x <- (Ok (mkRaw (-7) 3)); do y <- (Ok (-3)); p_cmp p int32 Le (RI x y)); Ok (negb b)), 216);
  ((do x <- (Ok (mkRaw (-7) 3)); do y <- (Ok (-3)); p_cmp p int32 Gt (RI x y)), 217);
  ((do x <- (Ok (mkRaw (-7) 3)); do y <- (Ok (-3)); p_cmp p int32 Ge (RI x y)), 218);
  ((do b <- (IRs (p_cmp p int32 Lt) (Ok 3) (Ok (mkRaw 7 3))); Ok (negb b)), 220);
  ((do b <- (IRs (p_cmp p int32 Le) (Ok 3) (Ok (mkRaw 7 3))); Ok (negb b)), 221);
  ((IRs (p_cmp p int32 Gt) (Ok 3) (Ok (mkRaw 7 3))), 222);
  ((IRs (p_cmp p int32 Ge) (Ok 3) (Ok (mkRaw 7 3))), 223);
  ((do b <- (do x <- (Ok (-2)); do y <- (Ok (mkRaw (-7) 3)); p_cmp p int32 Lt (IR x y)); Ok (negb b)), 225);
  ((do b <- (do x <- (Ok (-2)); do y <- (Ok (mkRaw (-7) 3)); p_cmp p int32 Le (IR x y)); Ok (negb b)), 226);
  ((do x <- (Ok (-2)); do y <- (Ok (mkRaw (-7) 3)); p_cmp p int32 Gt (IR x y)), 227);
  ((do x <- (Ok (-2)); do y <- (Ok (mkRaw (-7) 3)); p_cmp p int32 Ge (IR x y)), 228);
  ((do b <- (do x <- (Ok (mkRaw (-5) 0)); do y <- (Ok (mkRaw 0 1)); p_cmp p int32 Lt (RR x y)); Ok (negb b)), 230);
  ((do b <- (do x <- (Ok (mkRaw (-5) 0)); do y <- (Ok (mkRaw 0 1)); p_cmp p int32 Le (RR x y)); Ok (negb b)), 231);
  ((do b <- (do x <- (Ok (mkRaw (-5) 0)); do y <- (Ok (mkRaw 0 1)); p_cmp p int32 Gt (RR x y)); Ok (negb b)), 232);
  ((do b <- (do x <- (Ok (mkRaw (-5) 0)); do y <- (Ok (mkRaw 0 1)); p_cmp p int32 Ge (RR x y)); Ok (negb b)), 233);
  ((do b <- (do x <- (Ok (mkRaw 0 1)); do y <- (Ok (mkRaw (-5) 0)); p_cmp p int32 Lt (RR x y)); Ok (negb b)), 235);
  ((do b <- (do x <- (Ok (mkRaw 0 1)); do y <- (Ok (mkRaw (-5) 0)); p_cmp p int32 Le (RR x y)); Ok (negb b)), 236);
  ((do b <- (do x <- (Ok (mkRaw 0 1)); do y <- (Ok (mkRaw (-5) 0)); p_cmp p int32 Gt (RR x y)); Ok (negb b)), 237);
  ((do b <- (do x <- (Ok (mkRaw 0 1)); do y <- (Ok (mkRaw (-5) 0)); p_cmp p int32 Ge (RR x y)); Ok (negb b)), 238);
  ((do b <- (do x <- (Ok (mkRaw (-5) 0)); do y <- (Ok 2); p_cmp p int32 Lt (RI x y)); Ok (negb b)), 240);
  ((do b <- (do x <- (Ok (mkRaw (-5) 0)); do y <- (Ok 2); p_cmp p int32 Le (RI x y)); Ok (negb b)), 241);
  ((do b <- (do x <- (Ok (mkRaw (-5) 0)); do y <- (Ok 2); p_cmp p int32 Gt (RI x y)); Ok (negb b)), 242);
  ((do b <- (do x <- (Ok (mkRaw (-5) 0)); do y <- (Ok 2); p_cmp p int32 Ge (RI x y)); Ok (negb b)), 243);
  ((do b <- (do x <- (Ok 2); do y <- (Ok (mkRaw (-5) 0)); p_cmp p int32 Lt (IR x y)); Ok (negb b)), 245);
  ((do b <- (do x <- (Ok 2); do y <- (Ok (mkRaw (-5) 0)); p_cmp p int32 Le (IR x y)); Ok (negb b)), 246);
  ((do b <- (do x <- (Ok 2); do y <- (Ok (mkRaw (-5) 0)); p_cmp p int32 Gt (IR x y)); Ok (negb b)), 247);
  ((do b <- (do x <- (Ok 2); do y <- (Ok (mkRaw (-5) 0)); p_cmp p int32 Ge (IR x y)); Ok (negb b)), 248);
  ((do b <- (do x <- (Ok (mkRaw (-5) 0)); do y <- (Ok (mkRaw (-5) 0)); p_cmp p int32 Lt (RR x y)); Ok (negb b)), 250);
  ((do b <- (do x <- (Ok (mkRaw (-5) 0)); do y <- (Ok (mkRaw (-5) 0)); p_cmp p int32 Le (RR x y)); Ok (negb b)), 251);
  ((do b <- (do x <- (Ok (mkRaw (-5) 0)); do y <- (Ok (mkRaw (-5) 0)); p_cmp p int32 Gt (RR x y)); Ok (negb b)), 252);
  ((do b <- (do x <- (Ok (mkRaw (-5) 0)); do y <- (Ok (mkRaw (-5) 0)); p_cmp p int32 Ge (RR x y)); Ok (negb b)), 253);
  ((do x <- (do x <- (Ok (mkRaw 2 5)); p_negate p int32 x); do y <- (Ok (mkRaw (-2) 5)); p_cmp p int32 Eq (RR x y)), 258);
  ((do x <- (do x <- (Ok (mkRaw (-2) 5)); p_negate p int32 x); do y <- (Ok (mkRaw 2 5)); p_cmp p int32 Eq (RR x y)), 259);
  ((do x <- (RRs (p_arith p int32 Plus) (Ok (mkRaw 2 5)) (Ok (mkRaw 1 5))); do y <- (Ok (mkRaw 3 5)); p_cmp p int32 Eq (RR x y)), 264);
  ((do x <- (do x <- (Ok (mkRaw 2 5)); do y <- (Ok (mkRaw (-1) 5)); p_arith p int32 Plus (RR x y)); do y <- (Ok (mkRaw 1 5)); p_cmp p int32 Eq (RR x y)), 265);
  ((do x <- (do x <- (Ok (mkRaw (-2) 5)); do y <- (Ok (mkRaw 1 5)); p_arith p int32 Plus (RR x y)); do y <- (Ok (mkRaw (-1) 5)); p_cmp p int32 Eq (RR x y)), 266);
  ((do x <- (do x <- (Ok (mkRaw (-2) 5)); do y <- (Ok (mkRaw (-1) 5)); p_arith p int32 Plus (RR x y)); do y <- (Ok (mkRaw (-3) 5)); p_cmp p int32 Eq (RR x y)), 267);
  ((do x <- (RRs (p_arith p int32 Plus) (Ok (mkRaw 3 4)) (Ok (mkRaw 1 3))); do y <- (Ok (mkRaw 13 12)); p_cmp p int32 Eq (RR x y)), 269);
  ((do x <- (do x <- (Ok (mkRaw 3 4)); do y <- (Ok (mkRaw (-1) 3)); p_arith p int32 Plus (RR x y)); do y <- (Ok (mkRaw 5 12)); p_cmp p int32 Eq (RR x y)), 270);
  ((do x <- (do x <- (Ok (mkRaw (-3) 4)); do y <- (Ok (mkRaw 1 3)); p_arith p int32 Plus (RR x y)); do y <- (Ok (mkRaw (-5) 12)); p_cmp p int32 Eq (RR x y)), 271);
  ((do x <- (do x <- (Ok (mkRaw (-3) 4)); do y <- (Ok (mkRaw (-1) 3)); p_arith p int32 Plus (RR x y)); do y <- (Ok (mkRaw (-13) 12)); p_cmp p int32 Eq (RR x y)), 272);
  ((do x <- (RIs (p_arith p int32 Plus) (Ok (mkRaw 2 5)) (Ok 2)); do y <- (Ok (mkRaw 12 5)); p_cmp p int32 Eq (RR x y)), 274);
  ((do x <- (RIs (p_arith p int32 Plus) (Ok (mkRaw 2 5)) (Ok (-2))); do y <- (Ok (mkRaw (-8) 5)); p_cmp p int32 Eq (RR x y)), 275);
  ((do x <- (do x <- (Ok (mkRaw (-2) 5)); do y <- (Ok 2); p_arith p int32 Plus (RI x y)); do y <- (Ok (mkRaw 8 5)); p_cmp p int32 Eq (RR x y)), 276);
  ((do x <- (do x <- (Ok (mkRaw (-2) 5)); do y <- (Ok (-2)); p_arith p int32 Plus (RI x y)); do y <- (Ok (mkRaw (-12) 5)); p_cmp p int32 Eq (RR x y)), 277);
  ((do x <- (IRs (p_arith p int32 Plus) (Ok 2) (Ok (mkRaw 2 3))); do y <- (Ok (mkRaw 8 3)); p_cmp p int32 Eq (RR x y)), 279);
  ((do x <- (do x <- (Ok 2); do y <- (Ok (mkRaw (-2) 3)); p_arith p int32 Plus (IR x y)); do y <- (Ok (mkRaw 4 3)); p_cmp p int32 Eq (RR x y)), 280);
  ((do x <- (IRs (p_arith p int32 Plus) (Ok (-2)) (Ok (mkRaw 2 3))); do y <- (Ok (mkRaw (-4) 3)); p_cmp p int32 Eq (RR x y)), 281);
  ((do x <- (do x <- (Ok (-2)); do y <- (Ok (mkRaw (-2) 3)); p_arith p int32 Plus (IR x y)); do y <- (Ok (mkRaw (-8) 3)); p_cmp p int32 Eq (RR x y)), 282);
  ((do x <- (RRs (p_arith p int32 Minus) (Ok (mkRaw 2 5)) (Ok (mkRaw 1 5))); do y <- (Ok (mkRaw 1 5)); p_cmp p int32 Eq (RR x y)), 287);
  ((do x <- (do x <- (Ok (mkRaw 2 5)); do y <- (Ok (mkRaw (-1) 5)); p_arith p int32 Minus (RR x y)); do y <- (Ok (mkRaw 3 5)); p_cmp p int32 Eq (RR x y)), 288);
  ((do x <- (do x <- (Ok (mkRaw (-2) 5)); do y <- (Ok (mkRaw 1 5)); p_arith p int32 Minus (RR x y)); do y <- (Ok (mkRaw (-3) 5)); p_cmp p int32 Eq (RR x y)), 289);
  ((do x <- (do x <- (Ok (mkRaw (-2) 5)); do y <- (Ok (mkRaw (-1) 5)); p_arith p int32 Minus (RR x y)); do y <- (Ok (mkRaw (-1) 5)); p_cmp p int32 Eq (RR x y)), 290);
  ((do x <- (RRs (p_arith p int32 Minus) (Ok (mkRaw 3 4)) (Ok (mkRaw 1 3))); do y <- (Ok (mkRaw 5 12)); p_cmp p int32 Eq (RR x y)), 292);
  ((do x <- (do x <- (Ok (mkRaw 3 4)); do y <- (Ok (mkRaw (-1) 3)); p_arith p int32 Minus (RR x y)); do y <- (Ok (mkRaw 13 12)); p_cmp p int32 Eq (RR x y)), 293);
  ((do x <- (do x <- (Ok (mkRaw (-3) 4)); do y <- (Ok (mkRaw 1 3)); p_arith p int32 Minus (RR x y)); do y <- (Ok (mkRaw (-13) 12)); p_cmp p int32 Eq (RR x y)), 294);
  ((do x <- (do x <- (Ok (mkRaw (-3) 4)); do y <- (Ok (mkRaw (-1) 3)); p_arith p int32 Minus (RR x y)); do y <- (Ok (mkRaw (-5) 12)); p_cmp p int32 Eq (RR x y)), 295);
  ((do x <- (RIs (p_arith p int32 Minus) (Ok (mkRaw 2 5)) (Ok 2)); do y <- (Ok (mkRaw (-8) 5)); p_cmp p int32 Eq (RR x y)), 297);
  ((do x <- (RIs (p_arith p int32 Minus) (Ok (mkRaw 2 5)) (Ok (-2))); do y <- (Ok (mkRaw 12 5)); p_cmp p int32 Eq (RR x y)), 298);
  ((do x <- (do x <- (Ok (mkRaw (-2) 5)); do y <- (Ok 2); p_arith p int32 Minus (RI x y)); do y <- (Ok (mkRaw (-12) 5)); p_cmp p int32 Eq (RR x y)), 299);
  ((do x <- (do x <- (Ok (mkRaw (-2) 5)); do y <- (Ok (-2)); p_arith p int32 Minus (RI x y)); do y <- (Ok (mkRaw 8 5)); p_cmp p int32 Eq (RR x y)), 300);
  ((do x <- (IRs (p_arith p int32 Minus) (Ok 2) (Ok (mkRaw 2 3))); do y <- (Ok (mkRaw 4 3)); p_cmp p int32 Eq (RR x y)), 302);
  ((do x <- (do x <- (Ok 2); do y <- (Ok (mkRaw (-2) 3)); p_arith p int32 Minus (IR x y)); do y <- (Ok (mkRaw 8 3)); p_cmp p int32 Eq (RR x y)), 303);
  ((do x <- (IRs (p_arith p int32 Minus) (Ok (-2)) (Ok (mkRaw 2 3))); do y <- (Ok (mkRaw (-8) 3)); p_cmp p int32 Eq (RR x y)), 304);
  ((do x <- (do x <- (Ok (-2)); do y <- (Ok (mkRaw (-2) 3)); p_arith p int32 Minus (IR x y)); do y <- (Ok (mkRaw (-4) 3)); p_cmp p int32 Eq (RR x y)), 305);
  ((do x <- (RRs (p_arith p int32 Multiplies) (Ok (mkRaw 3 4)) (Ok (mkRaw 2 3))); do y <- (Ok (mkRaw 1 2)); p_cmp p int32 Eq (RR x y)), 310);
  ((do x <- (do x <- (Ok (mkRaw 3 4)); do y <- (Ok (mkRaw (-2) 3)); p_arith p int32 Multiplies (RR x y)); do y <- (Ok (mkRaw (-1) 2)); p_cmp p int32 Eq (RR x y)), 311);
  ((do x <- (do x <- (Ok (mkRaw (-3) 4)); do y <- (Ok (mkRaw 2 3)); p_arith p int32 Multiplies (RR x y)); do y <- (Ok (mkRaw (-1) 2)); p_cmp p int32 Eq (RR x y)), 312);
  ((do x <- (do x <- (Ok (mkRaw (-3) 4)); do y <- (Ok (mkRaw (-2) 3)); p_arith p int32 Multiplies (RR x y)); do y <- (Ok (mkRaw 1 2)); p_cmp p int32 Eq (RR x y)), 313);
  ((do x <- (RIs (p_arith p int32 Multiplies) (Ok (mkRaw 2 5)) (Ok 3)); do y <- (Ok (mkRaw 6 5)); p_cmp p int32 Eq (RR x y)), 315);
  ((do x <- (RIs (p_arith p int32 Multiplies) (Ok (mkRaw 2 5)) (Ok (-3))); do y <- (Ok (mkRaw (-6) 5)); p_cmp p int32 Eq (RR x y)), 316);
  ((do x <- (do x <- (Ok (mkRaw (-2) 5)); do y <- (Ok 3); p_arith p int32 Multiplies (RI x y)); do y <- (Ok (mkRaw (-6) 5)); p_cmp p int32 Eq (RR x y)), 317);
  ((do x <- (do x <- (Ok (mkRaw (-2) 5)); do y <- (Ok (-3)); p_arith p int32 Multiplies (RI x y)); do y <- (Ok (mkRaw 6 5)); p_cmp p int32 Eq (RR x y)), 318);
  ((do x <- (IRs (p_arith p int32 Multiplies) (Ok 3) (Ok (mkRaw 2 3))); do y <- (Ok (mkRaw 6 3)); p_cmp p int32 Eq (RR x y)), 320);
  ((do x <- (do x <- (Ok 3); do y <- (Ok (mkRaw (-2) 3)); p_arith p int32 Multiplies (IR x y)); do y <- (Ok (mkRaw (-6) 3)); p_cmp p int32 Eq (RR x y)), 321);
  ((do x <- (IRs (p_arith p int32 Multiplies) (Ok (-3)) (Ok (mkRaw 2 3))); do y <- (Ok (mkRaw (-6) 3)); p_cmp p int32 Eq (RR x y)), 322);
  ((do x <- (do x <- (Ok (-3)); do y <- (Ok (mkRaw (-2) 3)); p_arith p int32 Multiplies (IR x y)); do y <- (Ok (mkRaw 6 3)); p_cmp p int32 Eq (RR x y)), 323);
  ((do x <- (RRs (p_arith p int32 Divides) (Ok (mkRaw 3 4)) (Ok (mkRaw 3 2))); do y <- (Ok (mkRaw 1 2)); p_cmp p int32 Eq (RR x y)), 328);
  ((do x <- (do x <- (Ok (mkRaw 3 4)); do y <- (Ok (mkRaw (-3) 2)); p_arith p int32 Divides (RR x y)); do y <- (Ok (mkRaw (-1) 2)); p_cmp p int32 Eq (RR x y)), 329);
  ((do x <- (do x <- (Ok (mkRaw (-3) 4)); do y <- (Ok (mkRaw 3 2)); p_arith p int32 Divides (RR x y)); do y <- (Ok (mkRaw (-1) 2)); p_cmp p int32 Eq (RR x y)), 330);
  ((do x <- (do x <- (Ok (mkRaw (-3) 4)); do y <- (Ok (mkRaw (-3) 2)); p_arith p int32 Divides (RR x y)); do y <- (Ok (mkRaw 1 2)); p_cmp p int32 Eq (RR x y)), 331);
  ((do x <- (RIs (p_arith p int32 Divides) (Ok (mkRaw 2 5)) (Ok 3)); do y <- (Ok (mkRaw 2 15)); p_cmp p int32 Eq (RR x y)), 333);
  ((do x <- (RIs (p_arith p int32 Divides) (Ok (mkRaw 2 5)) (Ok (-3))); do y <- (Ok (mkRaw (-2) 15)); p_cmp p int32 Eq (RR x y)), 334);
  ((do x <- (do x <- (Ok (mkRaw (-2) 5)); do y <- (Ok 3); p_arith p int32 Divides (RI x y)); do y <- (Ok (mkRaw (-2) 15)); p_cmp p int32 Eq (RR x y)), 335);
  ((do x <- (do x <- (Ok (mkRaw (-2) 5)); do y <- (Ok (-3)); p_arith p int32 Divides (RI x y)); do y <- (Ok (mkRaw 2 15)); p_cmp p int32 Eq (RR x y)), 336);
  ((do x <- (IRs (p_arith p int32 Divides) (Ok 3) (Ok (mkRaw 3 2))); do y <- (Ok (mkRaw 6 3)); p_cmp p int32 Eq (RR x y)), 338);
  ((do x <- (do x <- (Ok 3); do y <- (Ok (mkRaw (-3) 2)); p_arith p int32 Divides (IR x y)); do y <- (Ok (mkRaw (-6) 3)); p_cmp p int32 Eq (RR x y)), 339);
  ((do x <- (IRs (p_arith p int32 Divides) (Ok (-3)) (Ok (mkRaw 3 2))); do y <- (Ok (mkRaw (-6) 3)); p_cmp p int32 Eq (RR x y)), 340);
  ((do x <- (do x <- (Ok (-3)); do y <- (Ok (mkRaw (-3) 2)); p_arith p int32 Divides (IR x y)); do y <- (Ok (mkRaw 6 3)); p_cmp p int32 Eq (RR x y)), 341);
  ((do x <- (RRs (p_arith p int32 Modulus) (Ok (mkRaw 9 11)) (Ok (mkRaw 5 11))); do y <- (Ok (mkRaw 4 11)); p_cmp p int32 Eq (RR x y)), 346);
  ((do x <- (do x <- (Ok (mkRaw 9 11)); do y <- (Ok (mkRaw (-5) 11)); p_arith p int32 Modulus (RR x y)); do y <- (Ok (mkRaw 4 11)); p_cmp p int32 Eq (RR x y)), 347);
  ((do x <- (do x <- (Ok (mkRaw (-9) 11)); do y <- (Ok (mkRaw 5 11)); p_arith p int32 Modulus (RR x y)); do y <- (Ok (mkRaw (-4) 11)); p_cmp p int32 Eq (RR x y)), 348);
  ((do x <- (do x <- (Ok (mkRaw (-9) 11)); do y <- (Ok (mkRaw (-5) 11)); p_arith p int32 Modulus (RR x y)); do y <- (Ok (mkRaw (-4) 11)); p_cmp p int32 Eq (RR x y)), 349);
  ((do x <- (RRs (p_arith p int32 Modulus) (Ok (mkRaw 4 7)) (Ok (mkRaw 2 5))); do y <- (Ok (mkRaw 6 35)); p_cmp p int32 Eq (RR x y)), 351);
  ((do x <- (do x <- (Ok (mkRaw 4 7)); do y <- (Ok (mkRaw (-2) 5)); p_arith p int32 Modulus (RR x y)); do y <- (Ok (mkRaw 6 35)); p_cmp p int32 Eq (RR x y)), 352);
  ((do x <- (do x <- (Ok (mkRaw (-4) 7)); do y <- (Ok (mkRaw 2 5)); p_arith p int32 Modulus (RR x y)); do y <- (Ok (mkRaw (-6) 35)); p_cmp p int32 Eq (RR x y)), 353);
  ((do x <- (do x <- (Ok (mkRaw (-4) 7)); do y <- (Ok (mkRaw (-2) 5)); p_arith p int32 Modulus (RR x y)); do y <- (Ok (mkRaw (-6) 35)); p_cmp p int32 Eq (RR x y)), 354);
  ((do x <- (RIs (p_arith p int32 Modulus) (Ok (mkRaw 12 5)) (Ok 2)); do y <- (Ok (mkRaw 2 5)); p_cmp p int32 Eq (RR x y)), 356);
  ((do x <- (RIs (p_arith p int32 Modulus) (Ok (mkRaw 12 5)) (Ok (-2))); do y <- (Ok (mkRaw 2 5)); p_cmp p int32 Eq (RR x y)), 357);
  ((do x <- (do x <- (Ok (mkRaw (-12) 5)); do y <- (Ok 2); p_arith p int32 Modulus (RI x y)); do y <- (Ok (mkRaw (-2) 5)); p_cmp p int32 Eq (RR x y)), 358);
  ((do x <- (do x <- (Ok (mkRaw (-12) 5)); do y <- (Ok (-2)); p_arith p int32 Modulus (RI x y)); do y <- (Ok (mkRaw (-2) 5)); p_cmp p int32 Eq (RR x y)), 359);
  ((do x <- (IRs (p_arith p int32 Modulus) (Ok 2) (Ok (mkRaw 3 7))); do y <- (Ok (mkRaw 2 7)); p_cmp p int32 Eq (RR x y)), 361);
  ((do x <- (do x <- (Ok 2); do y <- (Ok (mkRaw (-3) 7)); p_arith p int32 Modulus (IR x y)); do y <- (Ok (mkRaw 2 7)); p_cmp p int32 Eq (RR x y)), 362);
  ((do x <- (IRs (p_arith p int32 Modulus) (Ok (-2)) (Ok (mkRaw 3 7))); do y <- (Ok (mkRaw (-2) 7)); p_cmp p int32 Eq (RR x y)), 363);
  ((do x <- (do x <- (Ok (-2)); do y <- (Ok (mkRaw (-3) 7)); p_arith p int32 Modulus (IR x y)); do y <- (Ok (mkRaw (-2) 7)); p_cmp p int32 Eq (RR x y)), 364)
].

Example upstream_ops_tests_safe : failures (ops_tests (denote Safe)) = [].
Proof. vm_compute. reflexivity. Qed.
Example upstream_ops_tests_safe_reduced_i : failures (ops_tests (denote safe_reduced_i)) = [].
Proof. vm_compute. reflexivity. Qed.
Example upstream_ops_tests_safe_reduced_o : failures (ops_tests (denote safe_reduced_o)) = [].
Proof. vm_compute. reflexivity. Qed.
Example upstream_ops_tests_safe_reduced_io : failures (ops_tests (denote safe_reduced_io)) = [].
Proof. vm_compute. reflexivity. Qed.
Example upstream_ops_tests_fast : failures (ops_tests (denote Fast)) = [].
Proof. vm_compute. reflexivity. Qed.
Example upstream_ops_tests_fast_reduced_i : failures (ops_tests (denote fast_reduced_i)) = [].
Proof. vm_compute. reflexivity. Qed.
Example upstream_ops_tests_fast_reduced_o : failures (ops_tests (denote fast_reduced_o)) = [].
Proof. vm_compute. reflexivity. Qed.
Example upstream_ops_tests_fast_reduced_io : failures (ops_tests (denote fast_reduced_io)) = [].
Proof. vm_compute. reflexivity. Qed.

(** src/ieme/fraction.test.cpp: 112 assertions. *)
Definition fraction_tests (p : policy) (tl tr : rep) : list (res bool * Z) := [
  ((do x <- (Ok 0); do y <- (do x <- (Ok f_default); Ok (num x)); Ok (x =? y)), 19);
  ((do x <- (Ok 1); do y <- (do x <- (Ok f_default); Ok (den x)); Ok (x =? y)), 20);
  ((do x <- (Ok 3); do y <- (do x <- (Ok (mkRaw 3 4)); Ok (num x)); Ok (x =? y)), 28);
  ((do x <- (Ok 4); do y <- (do x <- (Ok (mkRaw 3 4)); Ok (den x)); Ok (x =? y)), 29);
  ((do x <- (Ok (-5)); do y <- (do x <- (Ok (mkRaw (-5) 6)); Ok (num x)); Ok (x =? y)), 36);
  ((do x <- (Ok 6); do y <- (do x <- (Ok (mkRaw (-5) 6)); Ok (den x)); Ok (x =? y)), 37);
  ((do x <- (Ok 5); do y <- (do x <- (do a <- (Ok 5); Ok (f_of_int a)); Ok (num x)); Ok (x =? y)), 44);
  ((do x <- (Ok 1); do y <- (do x <- (do a <- (Ok 5); Ok (f_of_int a)); Ok (den x)); Ok (x =? y)), 45);
  ((do x <- (Ok 45); do y <- (do x <- (match f_of_ratio int32 45 22 with Some x => Ok x | None => UB LibPrecond end); Ok (num x)); Ok (x =? y)), 52);
  ((do x <- (Ok 22); do y <- (do x <- (match f_of_ratio int32 45 22 with Some x => Ok x | None => UB LibPrecond end); Ok (den x)); Ok (x =? y)), 53);
  ((RRs (f_cmp p tl tr Eq) (to int32 tl (lit int32 3 4)) (to int32 tr (lit int32 3 4))), 89);
  ((do b <- (RRs (f_cmp p tl tr Ne) (to int32 tl (lit int32 3 4)) (to int32 tr (lit int32 3 4))); Ok (negb b)), 90);
  ((RRs (f_cmp p tl tr Eq) (to int32 tl (lit int32 6 8)) (to int32 tr (lit int32 3 4))), 92);
  ((do b <- (RRs (f_cmp p tl tr Ne) (to int32 tl (lit int32 6 8)) (to int32 tr (lit int32 3 4))); Ok (negb b)), 93);
  ((RIs (f_cmp p tl tr Eq) (to int32 tl (lit int32 3 1)) (do x <- (Ok 3); Ok (conv_int int32 tr x))), 95);
  ((do b <- (RIs (f_cmp p tl tr Ne) (to int32 tl (lit int32 3 1)) (do x <- (Ok 3); Ok (conv_int int32 tr x))); Ok (negb b)), 96);
  ((IRs (f_cmp p tl tr Eq) (do x <- (Ok 3); Ok (conv_int int32 tl x)) (to int32 tr (lit int32 3 1))), 98);
  ((do b <- (IRs (f_cmp p tl tr Ne) (do x <- (Ok 3); Ok (conv_int int32 tl x)) (to int32 tr (lit int32 3 1))); Ok (negb b)), 99);
  ((do b <- (RRs (f_cmp p tl tr Eq) (to int32 tl (lit int32 3 4)) (to int32 tr (lit int32 4 3))); Ok (negb b)), 101);
  ((RRs (f_cmp p tl tr Ne) (to int32 tl (lit int32 3 4)) (to int32 tr (lit int32 4 3))), 102);
  ((do b <- (RIs (f_cmp p tl tr Eq) (to int32 tl (lit int32 4 1)) (do x <- (Ok 3); Ok (conv_int int32 tr x))); Ok (negb b)), 104);
  ((RIs (f_cmp p tl tr Ne) (to int32 tl (lit int32 4 1)) (do x <- (Ok 3); Ok (conv_int int32 tr x))), 105);
  ((do b <- (IRs (f_cmp p tl tr Eq) (do x <- (Ok 3); Ok (conv_int int32 tl x)) (to int32 tr (lit int32 2 1))); Ok (negb b)), 107);
  ((IRs (f_cmp p tl tr Ne) (do x <- (Ok 3); Ok (conv_int int32 tl x)) (to int32 tr (lit int32 2 1))), 108);
  ((RIs (f_cmp p tl tr Eq) (to int32 tl (lit int32 3 1)) (do x <- (Ok 3); Ok (conv_int int32 tr x))), 110);
  ((do b <- (RIs (f_cmp p tl tr Ne) (to int32 tl (lit int32 3 1)) (do x <- (Ok 3); Ok (conv_int int32 tr x))); Ok (negb b)), 111);
  ((do b <- (RRs (f_cmp p tl tr Eq) (to int32 tl (lit int32 3 4)) (to int32 tr (lit int32 4 0))); Ok (negb b)), 113);
  ((RRs (f_cmp p tl tr Ne) (to int32 tl (lit int32 3 4)) (to int32 tr (lit int32 4 0))), 114);
  ((do b <- (RRs (f_cmp p tl tr Eq) (to int32 tl (lit int32 3 0)) (to int32 tr (lit int32 4 3))); Ok (negb b)), 116);
  ((RRs (f_cmp p tl tr Ne) (to int32 tl (lit int32 3 0)) (to int32 tr (lit int32 4 3))), 117);
  ((do b <- (RIs (f_cmp p tl tr Eq) (to int32 tl (lit int32 4 0)) (do x <- (Ok 3); Ok (conv_int int32 tr x))); Ok (negb b)), 119);
  ((RIs (f_cmp p tl tr Ne) (to int32 tl (lit int32 4 0)) (do x <- (Ok 3); Ok (conv_int int32 tr x))), 120);
  ((do b <- (IRs (f_cmp p tl tr Eq) (do x <- (Ok 3); Ok (conv_int int32 tl x)) (to int32 tr (lit int32 2 0))); Ok (negb b)), 122);
  ((IRs (f_cmp p tl tr Ne) (do x <- (Ok 3); Ok (conv_int int32 tl x)) (to int32 tr (lit int32 2 0))), 123);
  ((RRs (f_cmp p tl tr Lt) (to int32 tl (lit int32 3 5)) (to int32 tr (lit int32 4 5))), 128);
  ((RRs (f_cmp p tl tr Le) (to int32 tl (lit int32 3 5)) (to int32 tr (lit int32 4 5))), 129);
  ((do b <- (RRs (f_cmp p tl tr Gt) (to int32 tl (lit int32 3 5)) (to int32 tr (lit int32 4 5))); Ok (negb b)), 130);
  ((do b <- (RRs (f_cmp p tl tr Ge) (to int32 tl (lit int32 3 5)) (to int32 tr (lit int32 4 5))); Ok (negb b)), 131);
  ((RIs (f_cmp p tl tr Lt) (to int32 tl (lit int32 3 5)) (do x <- (Ok 2); Ok (conv_int int32 tr x))), 133);
  ((RIs (f_cmp p tl tr Le) (to int32 tl (lit int32 3 5)) (do x <- (Ok 2); Ok (conv_int int32 tr x))), 134);
  ((do b <- (RIs (f_cmp p tl tr Gt) (to int32 tl (lit int32 3 5)) (do x <- (Ok 2); Ok (conv_int int32 tr x))); Ok (negb b)), 135);
  ((do b <- (RIs (f_cmp p tl tr Ge) (to int32 tl (lit int32 3 5)) (do x <- (Ok 2); Ok (conv_int int32 tr x))); Ok (negb b)), 136);
  ((IRs (f_cmp p tl tr Lt) (do x <- (Ok 0); Ok (conv_int int32 tl x)) (to int32 tr (lit int32 4 5))), 138);
  ((IRs (f_cmp p tl tr Le) (do x <- (Ok 0); Ok (conv_int int32 tl x)) (to int32 tr (lit int32 4 5))), 139);
  ((do b <- (IRs (f_cmp p tl tr Gt) (do x <- (Ok 0); Ok (conv_int int32 tl x)) (to int32 tr (lit int32 4 5))); Ok (negb b)), 140);
  ((do b <- (IRs (f_cmp p tl tr Ge) (do x <- (Ok 0); Ok (conv_int int32 tl x)) (to int32 tr (lit int32 4 5))); Ok (negb b)), 141);
  ((do b <- (RRs (f_cmp p tl tr Lt) (to int32 tl (lit int32 3 5)) (to int32 tr (lit int32 3 5))); Ok (negb b)), 143);
  ((RRs (f_cmp p tl tr Le) (to int32 tl (lit int32 3 5)) (to int32 tr (lit int32 3 5))), 144);
  ((do b <- (RRs (f_cmp p tl tr Gt) (to int32 tl (lit int32 3 5)) (to int32 tr (lit int32 3 5))); Ok (negb b)), 145);
  ((RRs (f_cmp p tl tr Ge) (to int32 tl (lit int32 3 5)) (to int32 tr (lit int32 3 5))), 146);
  ((do b <- (RIs (f_cmp p tl tr Lt) (to int32 tl (lit int32 5 1)) (do x <- (Ok 5); Ok (conv_int int32 tr x))); Ok (negb b)), 148);
  ((RIs (f_cmp p tl tr Le) (to int32 tl (lit int32 5 1)) (do x <- (Ok 5); Ok (conv_int int32 tr x))), 149);
  ((do b <- (RIs (f_cmp p tl tr Gt) (to int32 tl (lit int32 1 5)) (do x <- (Ok 5); Ok (conv_int int32 tr x))); Ok (negb b)), 150);
  ((RIs (f_cmp p tl tr Ge) (to int32 tl (lit int32 5 1)) (do x <- (Ok 5); Ok (conv_int int32 tr x))), 151);
  ((do b <- (IRs (f_cmp p tl tr Lt) (do x <- (Ok 5); Ok (conv_int int32 tl x)) (to int32 tr (lit int32 5 1))); Ok (negb b)), 153);
  ((IRs (f_cmp p tl tr Le) (do x <- (Ok 5); Ok (conv_int int32 tl x)) (to int32 tr (lit int32 5 1))), 154);
  ((do b <- (IRs (f_cmp p tl tr Gt) (do x <- (Ok 5); Ok (conv_int int32 tl x)) (to int32 tr (lit int32 5 1))); Ok (negb b)), 155);
  ((IRs (f_cmp p tl tr Ge) (do x <- (Ok 5); Ok (conv_int int32 tl x)) (to int32 tr (lit int32 5 1))), 156);
  ((do b <- (RRs (f_cmp p tl tr Lt) (to int32 tl (lit int32 3 5)) (to int32 tr (lit int32 2 5))); Ok (negb b)), 158);
  ((do b <- (RRs (f_cmp p tl tr Le) (to int32 tl (lit int32 3 5)) (to int32 tr (lit int32 2 5))); Ok (negb b)), 159);
  ((RRs (f_cmp p tl tr Gt) (to int32 tl (lit int32 3 5)) (to int32 tr (lit int32 2 5))), 160);
  ((RRs (f_cmp p tl tr Ge) (to int32 tl (lit int32 3 5)) (to int32 tr (lit int32 2 5))), 161);
  ((do b <- (RIs (f_cmp p tl tr Lt) (to int32 tl (lit int32 3 5)) (do x <- (Ok 0); Ok (conv_int int32 tr x))); Ok (negb b)), 163);
  ((do b <- (RIs (f_cmp p tl tr Le) (to int32 tl (lit int32 3 5)) (do x <- (Ok 0); Ok (conv_int int32 tr x))); Ok (negb b)), 164);
  ((RIs (f_cmp p tl tr Gt) (to int32 tl (lit int32 3 5)) (do x <- (Ok 0); Ok (conv_int int32 tr x))), 165);
  ((RIs (f_cmp p tl tr Ge) (to int32 tl (lit int32 3 5)) (do x <- (Ok 0); Ok (conv_int int32 tr x))), 166);
  ((do b <- (IRs (f_cmp p tl tr Lt) (do x <- (Ok 2); Ok (conv_int int32 tl x)) (to int32 tr (lit int32 2 5))); Ok (negb b)), 168);
  ((do b <- (IRs (f_cmp p tl tr Le) (do x <- (Ok 2); Ok (conv_int int32 tl x)) (to int32 tr (lit int32 2 5))); Ok (negb b)), 169);
  ((IRs (f_cmp p tl tr Gt) (do x <- (Ok 2); Ok (conv_int int32 tl x)) (to int32 tr (lit int32 2 5))), 170);
  ((IRs (f_cmp p tl tr Ge) (do x <- (Ok 2); Ok (conv_int int32 tl x)) (to int32 tr (lit int32 2 5))), 171);
  ((do b <- (RRs (f_cmp p tl tr Lt) (to int32 tl (lit int32 3 0)) (to int32 tr (lit int32 2 7))); Ok (negb b)), 173);
  ((do b <- (RRs (f_cmp p tl tr Le) (to int32 tl (lit int32 3 0)) (to int32 tr (lit int32 2 7))); Ok (negb b)), 174);
  ((do b <- (RRs (f_cmp p tl tr Gt) (to int32 tl (lit int32 3 0)) (to int32 tr (lit int32 2 7))); Ok (negb b)), 175);
  ((do b <- (RRs (f_cmp p tl tr Ge) (to int32 tl (lit int32 3 0)) (to int32 tr (lit int32 2 7))); Ok (negb b)), 176);
  ((do b <- (RIs (f_cmp p tl tr Lt) (to int32 tl (lit int32 3 0)) (do x <- (Ok 3); Ok (conv_int int32 tr x))); Ok (negb b)), 178);
  ((do b <- (RIs (f_cmp p tl tr Le) (to int32 tl (lit int32 3 0)) (do x <- (Ok 3); Ok (conv_int int32 tr x))); Ok (negb b)), 179);
  ((do b <- (RIs (f_cmp p tl tr Gt) (to int32 tl (lit int32 3 0)) (do x <- (Ok 3); Ok (conv_int int32 tr x))); Ok (negb b)), 180);
  ((do b <- (RIs (f_cmp p tl tr Ge) (to int32 tl (lit int32 3 0)) (do x <- (Ok 3); Ok (conv_int int32 tr x))); Ok (negb b)), 181);
  ((do b <- (IRs (f_cmp p tl tr Lt) (do x <- (Ok 2); Ok (conv_int int32 tl x)) (to int32 tr (lit int32 2 0))); Ok (negb b)), 183);
  ((do b <- (IRs (f_cmp p tl tr Le) (do x <- (Ok 2); Ok (conv_int int32 tl x)) (to int32 tr (lit int32 2 0))); Ok (negb b)), 184);
  ((do b <- (IRs (f_cmp p tl tr Gt) (do x <- (Ok 2); Ok (conv_int int32 tl x)) (to int32 tr (lit int32 2 0))); Ok (negb b)), 185);
  ((do b <- (IRs (f_cmp p tl tr Ge) (do x <- (Ok 2); Ok (conv_int int32 tl x)) (to int32 tr (lit int32 2 0))); Ok (negb b)), 186);
  ((do x <- (RRs (f_arith p tl tr Plus) (to int32 tl (lit int32 3 4)) (to int32 tr (lit int32 1 3))); do y <- (to int32 tr (lit int32 13 12)); f_cmp p (common_rep tl tr) tr Eq (RR x y)), 191);
  ((do x <- (RIs (f_arith p tl tr Plus) (to int32 tl (lit int32 3 4)) (do x <- (Ok 1); Ok (conv_int int32 tr x))); do y <- (to int32 tr (lit int32 7 4)); f_cmp p (common_rep tl tr) tr Eq (RR x y)), 192);
  ((do x <- (IRs (f_arith p tl tr Plus) (do x <- (Ok 1); Ok (conv_int int32 tl x)) (to int32 tr (lit int32 1 3))); do y <- (to int32 tr (lit int32 4 3)); f_cmp p (common_rep tl tr) tr Eq (RR x y)), 193);
  ((do x <- (RRs (f_arith p tl tr Minus) (to int32 tl (lit int32 3 4)) (to int32 tr (lit int32 1 3))); do y <- (to int32 tr (lit int32 5 12)); f_cmp p (common_rep tl tr) tr Eq (RR x y)), 195);
  ((do x <- (RIs (f_arith p tl tr Minus) (to int32 tl (lit int32 5 4)) (do x <- (Ok 1); Ok (conv_int int32 tr x))); do y <- (to int32 tr (lit int32 1 4)); f_cmp p (common_rep tl tr) tr Eq (RR x y)), 196);
  ((do x <- (IRs (f_arith p tl tr Minus) (do x <- (Ok 1); Ok (conv_int int32 tl x)) (to int32 tr (lit int32 1 3))); do y <- (to int32 tr (lit int32 2 3)); f_cmp p (common_rep tl tr) tr Eq (RR x y)), 197);
  ((do x <- (RRs (f_arith p tl tr Multiplies) (to int32 tl (lit int32 3 4)) (to int32 tr (lit int32 1 2))); do y <- (to int32 tr (lit int32 3 8)); f_cmp p (common_rep tl tr) tr Eq (RR x y)), 199);
  ((do x <- (RIs (f_arith p tl tr Multiplies) (to int32 tl (lit int32 3 4)) (do x <- (Ok 2); Ok (conv_int int32 tr x))); do y <- (to int32 tr (lit int32 3 2)); f_cmp p (common_rep tl tr) tr Eq (RR x y)), 200);
  ((do x <- (IRs (f_arith p tl tr Multiplies) (do x <- (Ok 2); Ok (conv_int int32 tl x)) (to int32 tr (lit int32 1 3))); do y <- (to int32 tr (lit int32 2 3)); f_cmp p (common_rep tl tr) tr Eq (RR x y)), 201);
  ((do x <- (RRs (f_arith p tl tr Divides) (to int32 tl (lit int32 3 4)) (to int32 tr (lit int32 3 2))); do y <- (to int32 tr (lit int32 1 2)); f_cmp p (common_rep tl tr) tr Eq (RR x y)), 203);
  ((do x <- (RIs (f_arith p tl tr Divides) (to int32 tl (lit int32 2 5)) (do x <- (Ok 3); Ok (conv_int int32 tr x))); do y <- (to int32 tr (lit int32 2 15)); f_cmp p (common_rep tl tr) tr Eq (RR x y)), 204);
  ((do x <- (IRs (f_arith p tl tr Divides) (do x <- (Ok 2); Ok (conv_int int32 tl x)) (to int32 tr (lit int32 3 5))); do y <- (to int32 tr (lit int32 10 3)); f_cmp p (common_rep tl tr) tr Eq (RR x y)), 205);
  ((do x <- (RRs (f_arith p tl tr Modulus) (to int32 tl (lit int32 4 7)) (to int32 tr (lit int32 2 5))); do y <- (to int32 tr (lit int32 6 35)); f_cmp p (common_rep tl tr) tr Eq (RR x y)), 207);
  ((do x <- (RIs (f_arith p tl tr Modulus) (to int32 tl (lit int32 12 5)) (do x <- (Ok 2); Ok (conv_int int32 tr x))); do y <- (to int32 tr (lit int32 2 5)); f_cmp p (common_rep tl tr) tr Eq (RR x y)), 208);
  ((do x <- (IRs (f_arith p tl tr Modulus) (do x <- (Ok 2); Ok (conv_int int32 tl x)) (to int32 tr (lit int32 3 7))); do y <- (to int32 tr (lit int32 2 7)); f_cmp p (common_rep tl tr) tr Eq (RR x y)), 209);
  ((do x <- (do x <- (to int32 tl (lit int32 3 4)); do y <- (to int32 tr (lit int32 1 3)); f_assign p tl Plus x (FracOperand tr y)); do y <- (to int32 tr (lit int32 13 12)); f_cmp p tl tr Eq (RR x y)), 215);
  ((do x <- (do x <- (to int32 tl (lit int32 3 4)); do y <- (do x <- (Ok 1); Ok (conv_int int32 tr x)); f_assign p tl Plus x (IntOperand tr y)); do y <- (to int32 tr (lit int32 7 4)); f_cmp p tl tr Eq (RR x y)), 218);
  ((do x <- (do x <- (to int32 tl (lit int32 3 4)); do y <- (to int32 tr (lit int32 1 3)); f_assign p tl Minus x (FracOperand tr y)); do y <- (to int32 tr (lit int32 5 12)); f_cmp p tl tr Eq (RR x y)), 221);
  ((do x <- (do x <- (to int32 tl (lit int32 5 4)); do y <- (do x <- (Ok 1); Ok (conv_int int32 tr x)); f_assign p tl Minus x (IntOperand tr y)); do y <- (to int32 tr (lit int32 1 4)); f_cmp p tl tr Eq (RR x y)), 224);
  ((do x <- (do x <- (to int32 tl (lit int32 3 4)); do y <- (to int32 tr (lit int32 1 2)); f_assign p tl Multiplies x (FracOperand tr y)); do y <- (to int32 tr (lit int32 3 8)); f_cmp p tl tr Eq (RR x y)), 227);
  ((do x <- (do x <- (to int32 tl (lit int32 3 4)); do y <- (do x <- (Ok 2); Ok (conv_int int32 tr x)); f_assign p tl Multiplies x (IntOperand tr y)); do y <- (to int32 tr (lit int32 3 2)); f_cmp p tl tr Eq (RR x y)), 230);
  ((do x <- (do x <- (to int32 tl (lit int32 3 4)); do y <- (to int32 tr (lit int32 3 2)); f_assign p tl Divides x (FracOperand tr y)); do y <- (to int32 tr (lit int32 1 2)); f_cmp p tl tr Eq (RR x y)), 233);
  ((do x <- (do x <- (to int32 tl (lit int32 2 5)); do y <- (do x <- (Ok 3); Ok (conv_int int32 tr x)); f_assign p tl Divides x (IntOperand tr y)); do y <- (to int32 tr (lit int32 2 15)); f_cmp p tl tr Eq (RR x y)), 236);
  ((do x <- (do x <- (to int32 tl (lit int32 4 7)); do y <- (to int32 tr (lit int32 2 5)); f_assign p tl Modulus x (FracOperand tr y)); do y <- (to int32 tr (lit int32 6 35)); f_cmp p tl tr Eq (RR x y)), 239);
  ((do x <- (do x <- (to int32 tl (lit int32 12 5)); do y <- (do x <- (Ok 2); Ok (conv_int int32 tr x)); f_assign p tl Modulus x (IntOperand tr y)); do y <- (to int32 tr (lit int32 2 5)); f_cmp p tl tr Eq (RR x y)), 242);
  ((RRs (f_cmp (denote defaults) int32 int32 Eq) (do x <- (lit int32 1 2); Ok (f_posate x)) (lit int32 1 2)), 248);
  ((do x <- (do x <- (lit int32 (-1) 2); Ok (f_posate x)); do y <- (lit int32 (-1) 2); f_cmp (denote defaults) int32 int32 Eq (RR x y)), 249);
  ((RRs (f_cmp (denote defaults) int32 int32 Eq) (do x <- (lit int32 1 2); f_negate (denote defaults) int32 x) (lit int32 (-1) 2)), 251);
  ((do x <- (do x <- (lit int32 (-1) 2); f_negate (denote defaults) int32 x); do y <- (lit int32 1 2); f_cmp (denote defaults) int32 int32 Eq (RR x y)), 252);
  ((RRs (f_cmp (denote defaults) int32 int32 Eq) (lit int32 (-5) 7) (lit int32 (-5) 7)), 272)
].

Example upstream_fraction_tests_int_int_safe : failures (fraction_tests (denote Safe) int32 int32) = [].
Proof. vm_compute. reflexivity. Qed.
Example upstream_fraction_tests_int_long_int_safe : failures (fraction_tests (denote Safe) int32 int64) = [].
Proof. vm_compute. reflexivity. Qed.
Example upstream_fraction_tests_long_int_int_safe : failures (fraction_tests (denote Safe) int64 int32) = [].
Proof. vm_compute. reflexivity. Qed.
Example upstream_fraction_tests_int_unsigned_int_safe : failures (fraction_tests (denote Safe) int32 uint32) = [].
Proof. vm_compute. reflexivity. Qed.
Example upstream_fraction_tests_unsigned_int_int_safe : failures (fraction_tests (denote Safe) uint32 int32) = [].
Proof. vm_compute. reflexivity. Qed.
Example upstream_fraction_tests_long_long_int_unsigned_int_safe : failures (fraction_tests (denote Safe) int64 uint32) = [].
Proof. vm_compute. reflexivity. Qed.
Example upstream_fraction_tests_unsigned_int_long_long_int_safe : failures (fraction_tests (denote Safe) uint32 int64) = [].
Proof. vm_compute. reflexivity. Qed.
Example upstream_fraction_tests_int_int_fast : failures (fraction_tests (denote Fast) int32 int32) = [].
Proof. vm_compute. reflexivity. Qed.
Example upstream_fraction_tests_int_unsigned_int_fast : failures (fraction_tests (denote Fast) int32 uint32) = [].
Proof. vm_compute. reflexivity. Qed.
Example upstream_fraction_tests_unsigned_int_int_fast : failures (fraction_tests (denote Fast) uint32 int32) = [].
Proof. vm_compute. reflexivity. Qed.
Example upstream_fraction_tests_long_long_int_unsigned_int_fast : failures (fraction_tests (denote Fast) int64 uint32) = [].
Proof. vm_compute. reflexivity. Qed.
Example upstream_fraction_tests_unsigned_int_long_long_int_fast : failures (fraction_tests (denote Fast) uint32 int64) = [].
Proof. vm_compute. reflexivity. Qed.

(** src/ieme/raw_fraction.test.cpp:27-35, 37-48 and fraction.test.cpp:249-273 *)
Example upstream_streams :
  put_raw (mkRaw (-5) 7) = [45; 53; 47; 55] /\
  snd (get_raw int32 (mkIn [32; 45; 53; 32; 47; 32; 55; 32] false false) raw_default) = mkRaw (-5) 7 /\
  snd (get_raw int32 (mkIn [32; 45; 53; 32; 47; 32; 55; 32] false false) f_default) = mkRaw (-5) 7.
Proof. vm_compute. repeat split. Qed.

(** src/ieme/chrono.test.cpp:16-36: one second in microseconds, half an hour in
    hours, 62 hours, and 57 seconds held by the nanosecond clock. *)
Example upstream_chrono :
  let ok o r := match o with Some (Ok x) => match f_cmp (denote defaults) int64 int64 Eq (RR x r) with Ok b => b | _ => false end | _ => false end in
  ok (duration_cast (denote defaults) int64 (mkPeriod 1 1) (mkPeriod 1 1000000) (IntCount int64 1)) (mkRaw 1000000 1) = true /\
  ok (duration_cast (denote defaults) int64 (mkPeriod 60 1) (mkPeriod 3600 1) (IntCount int64 30)) (mkRaw 1 2) = true /\
  ok (to_fractional (denote defaults) int64 (mkPeriod 3600 1) 62) (mkRaw 62 1) = true /\
  duration_eq (denote defaults) int64 (mkPeriod 1 1000000000) (mkPeriod 1 1)
    (FracCount (mkRaw 57000000000 1)) (FracCount (mkRaw 57 1)) = Some (Ok true).
Proof. vm_compute. repeat split. Qed.
