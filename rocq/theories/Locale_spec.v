(** Specification for C115: numbers with grouped digits. *)

From Coq Require Import ZArith List Bool.
From Verif Require Import Machine Raw Stream Stream_spec Locale.
Import ListNotations.
Open Scope Z_scope.

(** The size of group [i], counted from the right: the last of the given sizes repeats;
    sizes outside 1..126 mean no limit. *)
Definition size_of (g : list Z) (i : nat) : Z := if (i <? length g)%nat then nth i g 0 else last g 0.
Definition limited (n : Z) : Prop := 0 < n < 127.

(** [text] is the digits [ds] with a separator between the groups, the rightmost of which
    is number [i]: every group is full except the leading one. *)
Inductive grouped (p : punct) : nat -> list Z -> list Z -> Prop :=
| leading_group : forall i ds, ds <> [] -> Forall decimal ds ->
    (limited (size_of (grouping p) i) -> Z.of_nat (length ds) <= size_of (grouping p) i) -> grouped p i ds ds
| next_group : forall i ds text d, limited (size_of (grouping p) i) -> Z.of_nat (length d) = size_of (grouping p) i ->
    Forall decimal d -> grouped p (S i) ds text -> grouped p i (ds ++ d) (text ++ [separator p] ++ d).

(** Separators that can be told from the rest of a fraction.  They may be blanks. *)
Definition usable (p : punct) : Prop :=
  ~ decimal (separator p) /\ separator p <> 43 /\ separator p <> 45 /\ separator p <> 47.

(** An optional sign, then digits, grouped or not at all. *)
Definition sign_text (sign : list Z) (neg : bool) : Prop :=
  (sign = [] /\ neg = false) \/ (sign = [43] /\ neg = false) \/ (sign = [45] /\ neg = true).
Definition punctuated (p : punct) (s : list Z) (neg : bool) (m : Z) : Prop :=
  exists sign ds text, s = sign ++ text /\ sign_text sign neg /\ ds <> [] /\ Forall decimal ds /\ m = decimal_value ds /\
    (text = ds \/ grouped p 0 ds text).
Definition reads_as_in (p : punct) (t : rep) (s : list Z) (z : Z) : Prop :=
  exists neg m, punctuated p s neg m /\
    if rsigned t then z = (if neg then - m else m) /\ rmin t <= z <= rmax t
    else m <= rmax t /\ z = (if neg then - m else m) mod 2 ^ rbits t.

(** The text does not go on with a digit or a separator. *)
Definition stops (p : punct) (s : list Z) : Prop :=
  match s with [] => True | c :: _ => ~ decimal c /\ (grouping p <> [] -> c <> separator p) end.

(** blanks, numerator, anything without a slash, slash, blanks, denominator; then [rest]. *)
Definition fraction_text_in (p : punct) (t : rep) (s : list Z) (v : raw) (rest : list Z) : Prop :=
  exists b1 n mid b2 d,
    s = b1 ++ n ++ mid ++ [47] ++ b2 ++ d ++ rest /\
    Forall blank b1 /\ reads_as_in p t n (num v) /\ stops p mid /\ ~ In 47 mid /\
    Forall blank b2 /\ reads_as_in p t d (den v) /\ stops p rest.

(** The number fits into the first group. *)
Definition one_group (p : punct) (z : Z) : Prop :=
  limited (size_of (grouping p) 0) -> Z.abs z < 10 ^ size_of (grouping p) 0.
