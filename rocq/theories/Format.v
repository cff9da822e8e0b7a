(** Writing and reading fractions under other format flags.

    Models the same operators as Stream.v (raw_fraction.hpp:57-71,
    fraction.hpp:499-511) on streams whose basefield, showbase, showpos,
    uppercase, width, fill and adjustfield have been set, together with the parts
    of the iostreams library they call.  Simplifications: those of Stream.v apart
    from the flags; the same flags for all parts of one fraction, because the
    operators do not change them; an empty basefield is left out. *)

From Coq Require Import ZArith List Bool.
From Verif Require Import Machine Raw Stream.
Import ListNotations.
Open Scope Z_scope.

(** std::ios_base::basefield and adjustfield (an empty adjustfield is right). Flags of
    the stream at raw_fraction.hpp:57-62. *)
Inductive basefield : Type := Oct | Dec | Hex.
(** std::ios_base::adjustfield of the stream at raw_fraction.hpp:57-62. *)
Inductive adjustfield : Type := Left | Right | Internal.
(** The base of the numbers written at raw_fraction.hpp:57-62. *)
Definition radix (b : basefield) : Z := match b with Oct => 8 | Dec => 10 | Hex => 16 end.

(** The format of an output stream. Of the stream at raw_fraction.hpp:57-62. *)
Record format : Type := mkFormat {
  f_base : basefield; f_showbase : bool; f_showpos : bool; f_uppercase : bool;
  f_width : Z; f_fill : Z; f_adjust : adjustfield
}.
(** The format of a stream whose flags were not changed, at raw_fraction.hpp:57-62. *)
Definition default_format : format := mkFormat Dec false false false 0 32 Right.
(** stream.width(0), done by every formatted inserter. By the calls at
    raw_fraction.hpp:61. *)
Definition no_width (f : format) : format :=
  mkFormat (f_base f) (f_showbase f) (f_showpos f) (f_uppercase f) 0 (f_fill f) (f_adjust f).

(** Digits of printf's %o, %d, %x and %X, least significant first. Of the numbers
    written at raw_fraction.hpp:61. *)
Definition digit_char (upper : bool) (d : Z) : Z :=
  if d <? 10 then 48 + d else if upper then 55 + d else 87 + d.
(** The digits of a number written at raw_fraction.hpp:61, pushed in front of [acc];
    [fuel] bounds their number. *)
Fixpoint put_base (fuel : nat) (r : Z) (upper : bool) (z : Z) (acc : list Z) : list Z :=
  match fuel with
  | O => acc
  | S fuel' =>
      let acc' := digit_char upper (z mod r) :: acc in
      if z / r =? 0 then acc' else put_base fuel' r upper (z / r) acc'
  end.
(** The digits of a number written at raw_fraction.hpp:61. *)
Definition put_magnitude (r : Z) (upper : bool) (z : Z) : list Z :=
  put_base (S (Z.to_nat (Z.log2 z))) r upper z [].

(** num_put::do_put ([facet.num.put.virtuals]): the sign or the base prefix, and the
    digits. Only decimal output of a signed type is signed; oct and hex write the value
    converted to the unsigned type. raw_fraction.hpp:61. *)
Definition put_prefix (t : rep) (f : format) (z : Z) : list Z :=
  match f_base f with
  | Dec => if z <? 0 then [45] else if f_showpos f && rsigned t then [43] else []
  | Oct => if f_showbase f && negb (z =? 0) then [48] else []
  | Hex => if f_showbase f && negb (z =? 0) then [48; if f_uppercase f then 88 else 120] else []
  end.
(** Prefix and digits of a number written at raw_fraction.hpp:61. *)
Definition put_body (t : rep) (f : format) (z : Z) : list Z :=
  put_magnitude (radix (f_base f)) (f_uppercase f)
    (match f_base f with Dec => Z.abs z | _ => z mod 2 ^ rbits t end).

(** Stage 3: padding to the width; internal pads after a sign or after 0x.
    raw_fraction.hpp:61. *)
Definition padding (f : format) (n : nat) : list Z := repeat (f_fill f) (Z.to_nat (f_width f - Z.of_nat n)).
(** operator<< of an integer: raw_fraction.hpp:61. *)
Definition put_int_formatted (t : rep) (f : format) (z : Z) : list Z :=
  let p := put_prefix t f z in
  let ds := put_body t f z in
  let pad := padding f (length p + length ds) in
  match f_adjust f with
  | Left => p ++ ds ++ pad
  | Right => pad ++ p ++ ds
  | Internal => match f_base f with Oct => pad ++ p ++ ds | _ => p ++ pad ++ ds end
  end.
(** operator<< of a char ([ostream.inserters.character]). raw_fraction.hpp:61. *)
Definition put_char_formatted (f : format) (c : Z) : list Z :=
  match f_adjust f with Left => [c] ++ padding f 1 | _ => padding f 1 ++ [c] end.

(** raw_fraction.hpp:57-62: the characters appended, and the format afterwards. *)
Definition put_raw_formatted (t : rep) (f : format) (v : raw) : list Z * format :=
  let n := put_int_formatted t f (num v) in
  let f := no_width f in
  let slash := put_char_formatted f 47 in
  let f := no_width f in
  let d := put_int_formatted t f (den v) in
  (n ++ slash ++ d, no_width f).

(** num_get::do_get ([facet.num.get.virtuals]) for %o, %d and %x: as [get_number], with
    the digits of the base and, in hexadecimal, 0x or 0X. raw_fraction.hpp:68 and 70. *)
Definition digit_of (c : Z) : Z :=
  if is_dec c then c - 48
  else if (97 <=? c) && (c <=? 102) then c - 87
  else if (65 <=? c) && (c <=? 70) then c - 55
  else 99.
(** Digits of the numbers read at raw_fraction.hpp:68 and 70. *)
Definition is_digit (b : basefield) (c : Z) : bool := digit_of c <? radix b.
(** The longest run of them, raw_fraction.hpp:68 and 70. *)
Fixpoint span_base (b : basefield) (s : list Z) : list Z * list Z :=
  match s with
  | c :: s' => if is_digit b c then let '(x, y) := span_base b s' in (c :: x, y) else ([], s)
  | [] => ([], [])
  end.
(** 0x or 0X in hexadecimal, raw_fraction.hpp:68 and 70. *)
Definition skip_0x (b : basefield) (s : list Z) : list Z :=
  match b, s with
  | Hex, z :: x :: s' => if (z =? 48) && ((x =? 120) || (x =? 88)) then s' else s
  | _, _ => s
  end.
(** The value of a run of digits, raw_fraction.hpp:68 and 70. *)
Definition base_int (b : basefield) (ds : list Z) : Z :=
  fold_left (fun acc c => acc * radix b + digit_of c) ds 0.
(** num_get::do_get for raw_fraction.hpp:68 and 70. *)
Definition get_number_in (b : basefield) (t : rep) (r : list Z) : istream * Z :=
  let '(neg, r1) :=
    match r with
    | c :: r' => if c =? 45 then (true, r') else if c =? 43 then (false, r') else (false, r)
    | [] => (false, r)
    end in
  let '(ds, r2) := span_base b (skip_0x b r1) in
  let eof := match r2 with [] => true | _ => false end in
  match ds with
  | [] => (mkIn r2 true eof, 0)
  | _ =>
      let m := base_int b ds in
      if rsigned t then
        let z := if neg then - m else m in
        if in_rep t z then (mkIn r2 false eof, z)
        else (mkIn r2 true eof, if neg then rmin t else rmax t)
      else if m <=? rmax t then (mkIn r2 false eof, cast t (if neg then - m else m))
      else (mkIn r2 true eof, rmax t)
  end.
(** operator>> of an integer: raw_fraction.hpp:68 and 70. *)
Definition get_int_in (b : basefield) (t : rep) (s : istream) (old : Z) : istream * Z :=
  let '(s1, ok) := sentry s in
  if ok then get_number_in b t (unread s1) else (s1, old).

(** raw_fraction.hpp:64-71, fraction.hpp:506-511 *)
Definition get_raw_in (b : basefield) (t : rep) (s : istream) (value : raw) : istream * raw :=
  let '(s1, n) := get_int_in b t s (num value) in
  let s2 := ignore_slash s1 in
  let '(s3, d) := get_int_in b t s2 (den value) in
  (s3, mkRaw n d).
