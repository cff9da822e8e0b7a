(** The static members of std::numeric_limits<fraction<Rep, Ops>>
    (/repo/include/ieme/limits.hpp:61-83).

    The members taken from std::numeric_limits<Rep> are those the standard
    requires of integer types ([numeric.limits.members]). *)

From Coq Require Import ZArith.
From Verif Require Import Machine Raw.
Open Scope Z_scope.

(** numeric_limits<Rep>::digits: the non-sign bits. Used at limits.hpp:74. *)
Definition rep_digits (t : rep) : Z := if rsigned t then rbits t - 1 else rbits t.
(** numeric_limits<Rep>::digits10: floor (digits * log10 2), as libstdc++ and libc++
    compute it, digits * 643 / 2136. Used at limits.hpp:75. *)
Definition rep_digits10 (t : rep) : Z := rep_digits t * 643 / 2136.

(** limits.hpp:61 *)
Definition nl_is_specialized : bool := true.
(** limits.hpp:62 *)
Definition nl_is_signed (t : rep) : bool := rsigned t.
(** limits.hpp:63 *)
Definition nl_is_integer : bool := false.
(** limits.hpp:64 *)
Definition nl_is_exact : bool := true.
(** limits.hpp:65-67 *)
Definition nl_has_infinity : bool := false.
(** limits.hpp:66. *)
Definition nl_has_quiet_NaN : bool := true.
(** limits.hpp:67. *)
Definition nl_has_signaling_NaN : bool := false.
(** limits.hpp:71 *)
Definition nl_is_iec559 : bool := false.
(** limits.hpp:72: integer types are bounded. *)
Definition nl_is_bounded (t : rep) : bool := true.
(** limits.hpp:73: unsigned integer types are modulo, signed ones (whose overflow
    is undefined) are not. *)
Definition nl_is_modulo (t : rep) : bool := negb (rsigned t).
(** limits.hpp:74-75 *)
Definition nl_digits (t : rep) : Z := rep_digits t.
(** limits.hpp:75. *)
Definition nl_digits10 (t : rep) : Z := rep_digits10 t.
(** limits.hpp:76 (0 for integer types) and 77 *)
Definition nl_max_digits10 : Z := 0.
(** limits.hpp:77. *)
Definition nl_radix : Z := 2.
(** limits.hpp:82 *)
Definition nl_traps : bool := false.
