(** Specification of the text of a fraction in a base (C94). *)

From Coq Require Import ZArith List.
From Verif Require Import Machine Raw Stream Stream_spec Format.
Import ListNotations.
Open Scope Z_scope.

(** The digit [c] stands for [d]. *)
Definition digit_is (c d : Z) : Prop :=
  48 <= c <= 57 /\ d = c - 48 \/ 97 <= c <= 102 /\ d = c - 97 + 10 \/ 65 <= c <= 70 /\ d = c - 65 + 10.

(** The digits [s] denote [m] in radix [r]. *)
Inductive spells (r : Z) : list Z -> Z -> Prop :=
| spells_one : forall c d, digit_is c d -> d < r -> spells r [c] d
| spells_more : forall s m c d, spells r s m -> digit_is c d -> d < r -> spells r (s ++ [c]) (m * r + d).

(** An optional sign, in hexadecimal an optional 0x or 0X, and the digits. *)
Definition numeral_in (b : basefield) (s : list Z) (neg : bool) (m : Z) : Prop :=
  exists sign mark ds,
    s = sign ++ mark ++ ds /\
    (neg = true /\ sign = [45] \/ neg = false /\ (sign = [] \/ sign = [43])) /\
    (mark = [] \/ b = Hex /\ (mark = [48; 120] \/ mark = [48; 88])) /\
    spells (radix b) ds m.
Definition reads_in (b : basefield) (t : rep) (s : list Z) (z : Z) : Prop :=
  exists neg m, numeral_in b s neg m /\
    if rsigned t then z = (if neg then - m else m) /\ rmin t <= z <= rmax t
    else m <= rmax t /\ z = (if neg then - m else m) mod 2 ^ rbits t.

(** The text does not go on with a digit (nor, after a hexadecimal 0, with x). *)
Definition stops (b : basefield) (s : list Z) : Prop :=
  match s with
  | [] => True
  | c :: _ => (forall d, digit_is c d -> radix b <= d) /\ (b = Hex -> c <> 120 /\ c <> 88)
  end.

(** blanks, numerator, anything without a slash, slash, blanks, denominator; then
    [rest]. *)
Definition fraction_text_in (b : basefield) (t : rep) (s : list Z) (v : raw) (rest : list Z) : Prop :=
  exists b1 n mid b2 d,
    s = b1 ++ n ++ mid ++ [47] ++ b2 ++ d ++ rest /\
    Forall blank b1 /\ reads_in b t n (num v) /\ stops b mid /\ ~ In 47 mid /\
    Forall blank b2 /\ reads_in b t d (den v) /\ stops b rest.

(** Padding that the reader passes over: blanks on either side, or zeros between
    the sign or prefix and the digits; or none, if the number fills the width. *)
Definition readable (t : rep) (f : format) (z : Z) : Prop :=
  blank (f_fill f) /\ f_adjust f <> Internal \/
  f_fill f = 48 /\ f_adjust f = Internal \/
  f_width f <= Z.of_nat (length (put_int_formatted t (no_width f) z)).
(** A number that is written as itself: any in decimal, otherwise not negative. *)
Definition as_itself (b : basefield) (v : raw) : Prop := b = Dec \/ 0 <= num v /\ 0 <= den v.
