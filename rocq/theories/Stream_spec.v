(** Specification of the text of a fraction. *)

From Coq Require Import ZArith List Bool.
From Verif Require Import Machine Raw Stream.
Import ListNotations.
Open Scope Z_scope.

(** Types that streams write and read as numbers: short and wider.  Narrower ones are
    the character types. *)
Definition numeric (t : rep) : Prop := 16 <= rbits t.

Definition blank (c : Z) : Prop := c = 32 \/ 9 <= c <= 13.
Definition decimal (c : Z) : Prop := 48 <= c <= 57.

(** The number a digit string denotes. *)
Fixpoint decimal_value (ds : list Z) : Z :=
  match ds with
  | [] => 0
  | c :: ds' => (c - 48) * 10 ^ Z.of_nat (length ds') + decimal_value ds'
  end.

(** An optional sign and at least one digit. *)
Inductive numeral : list Z -> bool -> Z -> Prop :=
| num_plain : forall ds, ds <> [] -> Forall decimal ds -> numeral ds false (decimal_value ds)
| num_plus : forall ds, ds <> [] -> Forall decimal ds -> numeral (43 :: ds) false (decimal_value ds)
| num_minus : forall ds, ds <> [] -> Forall decimal ds -> numeral (45 :: ds) true (decimal_value ds).

(** The value read from a numeral: a signed value must fit; an unsigned type
    takes a minus sign modulo 2^bits, as the C library does. *)
Definition reads_as (t : rep) (s : list Z) (z : Z) : Prop :=
  exists neg m, numeral s neg m /\
    if rsigned t then z = (if neg then - m else m) /\ rmin t <= z <= rmax t
    else m <= rmax t /\ z = (if neg then - m else m) mod 2 ^ rbits t.

Definition no_digit_first (s : list Z) : Prop :=
  match s with [] => True | c :: _ => ~ decimal c end.

(** blanks, numerator, anything without a slash, slash, blanks, denominator; then
    [rest]. *)
Definition fraction_text (t : rep) (s : list Z) (v : raw) (rest : list Z) : Prop :=
  exists b1 n mid b2 d,
    s = b1 ++ n ++ mid ++ [47] ++ b2 ++ d ++ rest /\
    Forall blank b1 /\ reads_as t n (num v) /\ no_digit_first mid /\ ~ In 47 mid /\
    Forall blank b2 /\ reads_as t d (den v) /\ no_digit_first rest.

(** Text that is no number of the type, what is stored for it, and what is left unread:
    without digits zero is stored, too large a number is replaced by the nearest value. *)
Inductive unreadable (t : rep) : list Z -> Z -> list Z -> Prop :=
| no_number : forall c s, ~ blank c -> ~ decimal c -> c <> 43 -> c <> 45 -> unreadable t (c :: s) 0 (c :: s)
| no_digits : forall c s, c = 43 \/ c = 45 -> no_digit_first s -> unreadable t (c :: s) 0 s
| too_large : forall n neg m rest, numeral n neg m -> no_digit_first rest ->
    (if neg && rsigned t then - m < rmin t else rmax t < m) ->
    unreadable t (n ++ rest) (if neg && rsigned t then rmin t else rmax t) rest.

(** A text at which reading a fraction into [old] fails, what [old] becomes, and what is
    left unread. *)
Inductive failed_read (t : rep) (old : raw) : list Z -> raw -> list Z -> Prop :=
| only_blanks : forall b, Forall blank b -> failed_read t old b old []
| no_numerator : forall b s z rest, Forall blank b -> unreadable t s z rest ->
    failed_read t old (b ++ s) (mkRaw z (den old)) rest
| no_slash : forall b n z mid, Forall blank b -> reads_as t n z -> no_digit_first mid -> ~ In 47 mid ->
    failed_read t old (b ++ n ++ mid) (mkRaw z (den old)) []
| nothing_after_slash : forall b n z mid b2, Forall blank b -> reads_as t n z -> no_digit_first mid -> ~ In 47 mid ->
    Forall blank b2 -> failed_read t old (b ++ n ++ mid ++ [47] ++ b2) (mkRaw z (den old)) []
| no_denominator : forall b n z mid b2 s d rest, Forall blank b -> reads_as t n z -> no_digit_first mid -> ~ In 47 mid ->
    Forall blank b2 -> unreadable t s d rest ->
    failed_read t old (b ++ n ++ mid ++ [47] ++ b2 ++ s) (mkRaw z d) rest.

(** Writing several fractions, each followed by [sep], and reading as many. *)
Fixpoint put_all (sep : list Z) (vs : list raw) : list Z :=
  match vs with [] => [] | v :: vs' => put_raw v ++ sep ++ put_all sep vs' end.
Fixpoint get_all (t : rep) (n : nat) (s : istream) (old : raw) : istream * list raw :=
  match n with
  | O => (s, [])
  | S n' => let '(s1, v) := get_raw t s old in let '(s2, vs) := get_all t n' s1 old in (s2, v :: vs)
  end.
