(** Writing fractions to and reading them from streams.

    Models /repo/include/ieme/raw_fraction.hpp:57-71 and fraction.hpp:499-511,
    together with the parts of the iostreams library they call: operator<< and
    operator>> of the built-in integer types and istream::ignore.
    Simplifications: narrow streams with the default format flags (dec, skipws,
    no width), the classic locale and an empty exception mask; a character is its
    code; the source delivers its characters and then the end of the stream.
    The representation is an integer type other than a character type: char, signed
    char and unsigned char, which streams treat differently, are in Charstream.v. *)

From Coq Require Import ZArith List Bool.
From Verif Require Import Machine Raw.
Import ListNotations.
Open Scope Z_scope.

(** operator<< of an integer ([facet.num.put.virtuals], printf %d): the digits, least
    significant first, pushed in front of [acc]. [fuel] bounds the number of digits
    (put_digits_enough). Used at raw_fraction.hpp:57-62. *)
Fixpoint put_digits (fuel : nat) (z : Z) (acc : list Z) : list Z :=
  match fuel with
  | O => acc
  | S fuel' =>
      let acc' := (48 + z mod 10) :: acc in
      if z / 10 =? 0 then acc' else put_digits fuel' (z / 10) acc'
  end.
(** operator<< of an integer: raw_fraction.hpp:57-62. *)
Definition put_int (z : Z) : list Z :=
  let m := Z.abs z in
  let ds := put_digits (S (Z.to_nat (Z.log2 m))) m [] in
  if z <? 0 then 45 :: ds else ds.

(** raw_fraction.hpp:57-62, fraction.hpp:499-504: the characters appended. *)
Definition put_raw (v : raw) : list Z := put_int (num v) ++ [47] ++ put_int (den v).

(** An input stream: the characters not yet extracted and its state bits. The parameter
    at raw_fraction.hpp:64-71. *)
Record istream : Type := mkIn { unread : list Z; failbit : bool; eofbit : bool }.
(** basic_ios::good, asked by the sentries of raw_fraction.hpp:64-71. *)
Definition good (s : istream) : bool := negb (failbit s) && negb (eofbit s).
(** setstate(failbit), within the calls at raw_fraction.hpp:64-71. *)
Definition set_fail (s : istream) : istream := mkIn (unread s) true (eofbit s).

(** isspace in the classic locale. For the sentries of raw_fraction.hpp:64-71. *)
Definition is_space (c : Z) : bool := (c =? 32) || ((9 <=? c) && (c <=? 13)).
(** isdigit, for the numbers read at raw_fraction.hpp:68 and 70. *)
Definition is_dec (c : Z) : bool := (48 <=? c) && (c <=? 57).

(** Skipping blanks, for the sentries of raw_fraction.hpp:64-71. *)
Fixpoint skip_spaces (s : list Z) : list Z :=
  match s with
  | c :: s' => if is_space c then skip_spaces s' else s
  | [] => []
  end.

(** The sentry of formatted input ([istream.sentry]). Of the calls at
    raw_fraction.hpp:68 and 70. *)
Definition sentry (s : istream) : istream * bool :=
  if good s then
    match skip_spaces (unread s) with
    | [] => (mkIn [] true true, false)
    | r => (mkIn r false false, true)
    end
  else (set_fail s, false).

(** The longest prefix of digits. Of the numbers read at raw_fraction.hpp:68 and 70. *)
Fixpoint span_digits (s : list Z) : list Z * list Z :=
  match s with
  | c :: s' =>
      if is_dec c then let '(a, b) := span_digits s' in (c :: a, b) else ([], s)
  | [] => ([], [])
  end.

(** The value of a run of digits, for the numbers read at raw_fraction.hpp:68 and 70. *)
Definition digits_int (ds : list Z) : Z := fold_left (fun acc c => acc * 10 + (c - 48)) ds 0.

(** num_get::do_get for a decimal integer ([facet.num.get.virtuals]): an optional sign
    and the longest run of digits are extracted; without digits 0 is stored and failbit
    set; out of range the nearest value is stored and failbit set; a negated value of an
    unsigned type wraps. Used at raw_fraction.hpp:68 and 70. *)
Definition get_number (t : rep) (r : list Z) : istream * Z :=
  let '(neg, r1) :=
    match r with
    | c :: r' => if c =? 45 then (true, r') else if c =? 43 then (false, r') else (false, r)
    | [] => (false, r)
    end in
  let '(ds, r2) := span_digits r1 in
  let eof := match r2 with [] => true | _ => false end in
  match ds with
  | [] => (mkIn r2 true eof, 0)
  | _ =>
      let m := digits_int ds in
      if rsigned t then
        let z := if neg then - m else m in
        if in_rep t z then (mkIn r2 false eof, z)
        else (mkIn r2 true eof, if neg then rmin t else rmax t)
      else if m <=? rmax t then (mkIn r2 false eof, cast t (if neg then - m else m))
      else (mkIn r2 true eof, rmax t)
  end.

(** operator>> of an integer type ([istream.formatted.arithmetic]); the value is
    untouched when the sentry fails. For int the library reads a long and clamps, with
    the same effect. raw_fraction.hpp:68 and 70. *)
Definition get_int (t : rep) (s : istream) (old : Z) : istream * Z :=
  let '(s1, ok) := sentry s in
  if ok then get_number t (unread s1) else (s1, old).

(** What follows the first slash, for raw_fraction.hpp:69. *)
Fixpoint after_slash (s : list Z) : option (list Z) :=
  match s with
  | c :: s' => if c =? 47 then Some s' else after_slash s'
  | [] => None
  end.

(** istream::ignore(max, '/') ([istream.unformatted]): no limit on the count.
    raw_fraction.hpp:69. *)
Definition ignore_slash (s : istream) : istream :=
  if good s then
    match after_slash (unread s) with
    | Some r => mkIn r false false
    | None => mkIn [] false true
    end
  else set_fail s.

(** raw_fraction.hpp:64-71, fraction.hpp:506-511 *)
Definition get_raw (t : rep) (s : istream) (value : raw) : istream * raw :=
  let '(s1, n) := get_int t s (num value) in
  let s2 := ignore_slash s1 in
  let '(s3, d) := get_int t s2 (den value) in
  (s3, mkRaw n d).
