(** Mode arguments of any value.

    [reduce_mode] and [round_mode] are scoped enumerations without a stated
    underlying type (reduce_mode.hpp:8, fraction_math.hpp:15), so each has the
    values of int: [static_cast<round_mode>(7)] is a valid argument.  Raw.v and
    Fmath.v have the named enumerators only; here a mode is any integer and the
    functions that switch on it include what follows the switch. *)

From Coq Require Import ZArith Bool.
From Verif Require Import Machine Raw Ops Fraction Fmath.
Open Scope Z_scope.

(** raw_fraction_math.hpp:53-66, and fraction_math.hpp:108-113, which forwards to it *)
Definition reduce_any (t : rep) (v : raw) (mode : Z) : res raw :=
  if mode =? 0 then reduce_normalize_signs t v
  else if mode =? 1 then reduce_ignore_signs t v
  else Ok (mkRaw 0 0).

(** fraction_math.hpp:135-152; the call after the switch passes the default
    argument of line 44, [round_mode::round], so it recurs at most once. *)
Definition to_whole_any (p : policy) (t : rep) (v : raw) (mode : Z) : res Z :=
  if mode =? 0 then f_trunc t v
  else if mode =? 1 then f_ceil t v
  else if mode =? 2 then f_floor t v
  else if mode =? 3 then f_round p t v
  else f_round p t v.

(** fraction_math.hpp:188-206; the default argument is on line 62. *)
Definition redenominate_any (p : policy) (t : rep) (v : raw) (d : Z) (mode : Z) : res raw :=
  if mode =? 0 then f_trunc_redenominate p t v d
  else if mode =? 1 then f_ceil_redenominate p t v d
  else if mode =? 2 then f_floor_redenominate p t v d
  else if mode =? 3 then f_round_redenominate p t v d
  else f_round_redenominate p t v d.
