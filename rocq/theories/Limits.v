(** Limits of fractions.

    Models limits<fraction<Rep, Ops>> and std::numeric_limits<fraction<Rep,
    Ops>> of /repo/include/ieme/limits.hpp.  The partial specialisations for
    mixed_number (limits.hpp:33-45, 97-139, 175-201 and 273 onward) name a
    non-existent member mixed_number::fraction_type and do not compile when
    instantiated, so they are not modelled. *)

From Coq Require Import ZArith.
From Verif Require Import Machine Raw Fraction.
Open Scope Z_scope.

(** limits.hpp:151-155; the fraction is constructed from the integer. *)
Definition limits_max (t : rep) : raw := f_of_int (rmax t).
(** limits.hpp:157-161 *)
Definition limits_min (t : rep) : raw := f_of_int (rmin t).
(** limits.hpp:163-167 *)
Definition limits_smallest (t : rep) : raw := mkRaw 1 (rmax t).
(** limits.hpp:169-173 *)
Definition limits_undefined : raw := mkRaw 0 0.

(** limits.hpp:210-215 *)
Definition nl_min (t : rep) : raw := limits_min t.
(** limits.hpp:217-222 *)
Definition nl_lowest (t : rep) : raw := limits_min t.
(** limits.hpp:224-229 *)
Definition nl_max (t : rep) : raw := limits_max t.
(** limits.hpp:231-236 *)
Definition nl_epsilon (t : rep) : raw := limits_smallest t.
(** limits.hpp:238-243, 245-250, 259-264, 266-271: the corresponding limit of an
    integral representation is 0. *)
Definition nl_round_error : raw := f_of_int 0.
(** limits.hpp:245-250. *)
Definition nl_infinity : raw := f_of_int 0.
(** limits.hpp:259-264. *)
Definition nl_signaling_NaN : raw := f_of_int 0.
(** limits.hpp:266-271. *)
Definition nl_denorm_min : raw := f_of_int 0.
(** limits.hpp:252-257 *)
Definition nl_quiet_NaN : raw := limits_undefined.
