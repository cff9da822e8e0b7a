(** Writing and reading fractions of char, signed char and unsigned char.

    Models the same operators as Stream.v (raw_fraction.hpp:57-71,
    fraction.hpp:499-511) for the character types of 8 bits (std::int8_t and
    std::uint8_t among them), which streams write and read as characters
    ([ostream.inserters.character], [istream.extractors]).  Simplifications: those of
    Stream.v; a character is its code, 0 to 255. *)

From Coq Require Import ZArith List Bool.
From Verif Require Import Machine Raw Stream.
Import ListNotations.
Open Scope Z_scope.

(** The character with the bits of [z]. Of a part written at raw_fraction.hpp:61. *)
Definition char_code (z : Z) : Z := z mod 256.

(** raw_fraction.hpp:57-62, fraction.hpp:499-504 *)
Definition put_raw_char (v : raw) : list Z := [char_code (num v)] ++ [47] ++ [char_code (den v)].

(** operator>> of a character ([istream.extractors]): after blanks, one character; the
    end of the stream is noticed only by the next operation. raw_fraction.hpp:68 and 70.
    *)
Definition get_char (t : rep) (s : istream) (old : Z) : istream * Z :=
  let '(s1, ok) := sentry s in
  if ok then
    match unread s1 with
    | c :: r => (mkIn r false false, cast t c)
    | [] => (mkIn [] true true, old)
    end
  else (s1, old).

(** raw_fraction.hpp:64-71, fraction.hpp:506-511 *)
Definition get_raw_char (t : rep) (s : istream) (value : raw) : istream * raw :=
  let '(s1, n) := get_char t s (num value) in
  let s2 := ignore_slash s1 in
  let '(s3, d) := get_char t s2 (den value) in
  (s3, mkRaw n d).
