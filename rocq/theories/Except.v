(** Writing and reading fractions with streams that throw and devices that fill up.

    Models the same operators as Stream.v (raw_fraction.hpp:57-71,
    fraction.hpp:499-511) on streams with an exception mask
    (std::basic_ios::exceptions), and output devices that accept only so many more
    characters.  The operators are declared noexcept (raw_fraction.hpp:30, 34, 59, 66;
    fraction.hpp:21, 25, 501, 508), so an exception thrown by a call in their bodies
    calls std::terminate.  Simplifications: those of Stream.v otherwise; the source of
    an input stream does not fail other than by ending. *)

From Coq Require Import ZArith List Bool.
From Verif Require Import Machine Raw Stream.
Import ListNotations.
Open Scope Z_scope.

(** How a call ends: it returns, or the program is terminated (std::terminate,
    [except.spec]). The operators at raw_fraction.hpp:57-71 are noexcept. *)
Inductive ended (A : Type) : Type := Returned (a : A) | Terminated.
Arguments Returned {A} a.
Arguments Terminated {A}.
(** One call after another within raw_fraction.hpp:57-71. *)
Definition and_then {A B : Type} (x : ended A) (f : A -> ended B) : ended B :=
  match x with Returned a => f a | Terminated => Terminated end.

(** The bits given to std::basic_ios::exceptions. Of the streams at
    raw_fraction.hpp:57-71. *)
Record exceptions : Type := mkExc { on_fail : bool; on_eof : bool; on_bad : bool }.

(** std::basic_ios::setstate ([iostate.flags]) throws when the state then has a bit of
    the mask; inside the operators that ends the program. The calls below set no state
    on success, when the state has at most the bits it was given.
    raw_fraction.hpp:68-70. *)
Definition after_input {A : Type} (m : exceptions) (r : istream * A) : ended (istream * A) :=
  if (on_fail m && failbit (fst r)) || (on_eof m && eofbit (fst r)) then Terminated else Returned r.

(** raw_fraction.hpp:64-71, fraction.hpp:506-511 *)
Definition get_raw_ex (m : exceptions) (t : rep) (s : istream) (value : raw) : ended (istream * raw) :=
  and_then (after_input m (get_int t s (num value))) (fun r1 =>
  and_then (after_input m (ignore_slash (fst r1), tt)) (fun r2 =>
  and_then (after_input m (get_int t (fst r2) (den value))) (fun r3 =>
  Returned (fst r3, mkRaw (snd r1) (snd r3))))).

(** An output stream: the characters its device has taken, how many more it takes, and
    its state bits. The parameter at raw_fraction.hpp:57-58. *)
Record ostream : Type := mkOut { written : list Z; room : nat; ofailbit : bool; obadbit : bool }.

(** setstate in an inserter called at raw_fraction.hpp:61. *)
Definition after_output (m : exceptions) (s : ostream) : ended ostream :=
  if (on_fail m && ofailbit s) || (on_bad m && obadbit s) then Terminated else Returned s.

(** Formatted output of a number or a character ([ostream.formatted.reqmts]): a stream
    that is not good takes nothing, and its sentry may set failbit ([ostream.sentry];
    [q] says whether it does); when the device is full badbit is set.
    raw_fraction.hpp:61. *)
Definition put_text (m : exceptions) (q : bool) (s : ostream) (cs : list Z) : ended ostream :=
  if ofailbit s || obadbit s then
    after_output m (mkOut (written s) (room s) (ofailbit s || q) (obadbit s))
  else if Nat.leb (length cs) (room s) then
    after_output m (mkOut (written s ++ cs) (room s - length cs) false false)
  else after_output m (mkOut (written s ++ firstn (room s) cs) 0 false true).

(** raw_fraction.hpp:57-62, fraction.hpp:499-504 *)
Definition put_raw_ex (m : exceptions) (q : bool) (s : ostream) (v : raw) : ended ostream :=
  and_then (put_text m q s (put_int (num v))) (fun s1 =>
  and_then (put_text m q s1 [47]) (fun s2 =>
  put_text m q s2 (put_int (den v)))).
