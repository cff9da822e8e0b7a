(** Writing and reading fractions under any basefield and without skipws.

    Models the same operators as Stream.v and Format.v (raw_fraction.hpp:57-71,
    fraction.hpp:499-511) on streams with any set of basefield bits, including none,
    and with skipws set or not.  Simplifications: those of Format.v otherwise. *)

From Coq Require Import ZArith List Bool.
From Verif Require Import Machine Raw Stream Format.
Import ListNotations.
Open Scope Z_scope.

(** The flags of the streams at raw_fraction.hpp:57-71. *)
Record flags : Type := mkFlags { fl_oct : bool; fl_dec : bool; fl_hex : bool; fl_skipws : bool }.

(** num_put::do_put ([facet.num.put.virtuals], stage 1): oct alone is %o, hex alone is
    %x, anything else is %d or %u. raw_fraction.hpp:61. *)
Definition out_base (fl : flags) : basefield :=
  match fl_oct fl, fl_dec fl, fl_hex fl with
  | true, false, false => Oct
  | false, false, true => Hex
  | _, _, _ => Dec
  end.
(** num_get::do_get ([facet.num.get.virtuals], stage 1): oct alone is %o, hex alone is
    %X, none is %i (here None), anything else is %d or %u. raw_fraction.hpp:68 and 70.
    *)
Definition in_base (fl : flags) : option basefield :=
  match fl_oct fl, fl_dec fl, fl_hex fl with
  | true, false, false => Some Oct
  | false, false, true => Some Hex
  | false, false, false => None
  | _, _, _ => Some Dec
  end.

(** raw_fraction.hpp:57-62, fraction.hpp:499-504 *)
Definition with_base (b : basefield) (f : format) : format :=
  mkFormat b (f_showbase f) (f_showpos f) (f_uppercase f) (f_width f) (f_fill f) (f_adjust f).
(** raw_fraction.hpp:57-62. *)
Definition put_raw_flags (t : rep) (fl : flags) (f : format) (v : raw) : list Z :=
  fst (put_raw_formatted t (with_base (out_base fl) f) v).

(** %i: 0x or 0X announces hexadecimal, another 0 octal. raw_fraction.hpp:68 and 70. *)
Definition after_sign (r : list Z) : list Z :=
  match r with c :: r' => if (c =? 45) || (c =? 43) then r' else r | [] => r end.
(** The base that the text announces, raw_fraction.hpp:68 and 70. *)
Definition announced (r : list Z) : basefield :=
  match r with
  | [] => Dec
  | z :: r' =>
      if z =? 48 then
        match r' with
        | x :: _ => if (x =? 120) || (x =? 88) then Hex else Oct
        | [] => Oct
        end
      else Dec
  end.
(** num_get::do_get for raw_fraction.hpp:68 and 70. *)
Definition get_number_flags (t : rep) (fl : flags) (r : list Z) : istream * Z :=
  get_number_in (match in_base fl with Some b => b | None => announced (after_sign r) end) t r.

(** The sentry of formatted input ([istream.sentry]): blanks are skipped only with
    skipws; without it the end of the stream is met when reading. raw_fraction.hpp:68
    and 70. *)
Definition sentry_flags (fl : flags) (s : istream) : istream * bool :=
  if fl_skipws fl then sentry s else if good s then (s, true) else (set_fail s, false).
(** operator>> of an integer: raw_fraction.hpp:68 and 70. *)
Definition get_int_flags (t : rep) (fl : flags) (s : istream) (old : Z) : istream * Z :=
  let '(s1, ok) := sentry_flags fl s in
  if ok then get_number_flags t fl (unread s1) else (s1, old).

(** raw_fraction.hpp:64-71, fraction.hpp:506-511 *)
Definition get_raw_flags (t : rep) (fl : flags) (s : istream) (value : raw) : istream * raw :=
  let '(s1, n) := get_int_flags t fl s (num value) in
  let s2 := ignore_slash s1 in
  let '(s3, d) := get_int_flags t fl s2 (den value) in
  (s3, mkRaw n d).
