(** More operations of std::chrono instantiated with fractional durations.

    The aliases of /repo/include/ieme/chrono.hpp:30-53 make ieme's durations and
    time points instances of std::chrono::duration and std::chrono::time_point;
    the functions below are those of the C++ standard, as instantiated. *)

From Coq Require Import ZArith List Bool.
From Verif Require Import Machine Raw Ops Fraction Limits Chrono.
Open Scope Z_scope.

(** d * s, d / s and d % s for a scalar s ([time.duration.nonmember]): the count,
    converted to the fractional representation, with the scalar; the result is
    converted back to it.  Scalars are fractions of the same representation (others
    have no common type) or integers of any type, std::common_type of which with the
    fraction is the fraction (fraction.hpp:40). *)
Inductive scalar : Type :=
| FracScalar (r : raw)
| IntScalar (s : rep) (z : Z).
(** d op s, on durations of the type at chrono.hpp:30-31. *)
Definition duration_scale (p : policy) (t : rep) (op : arith_op) (c : count) (s : scalar) : res raw :=
  match s with
  | FracScalar r => f_arith p t t op (RR (to_cr t c) r)
  | IntScalar s z =>
      do x <- f_arith p t s op (RI (to_cr t c) z);
      Ok (conv_raw (common_rep t s) t x)
  end.

(** d1 / d2 and d1 % d2 ([time.duration.nonmember]): on the counts of the common
    duration; the quotient is a plain fraction, the remainder a duration of the common
    period. On durations of the type at chrono.hpp:30-31. *)
Definition duration_ratio (p : policy) (t : rep) (pl pr : period) (l r : count) : option (res raw) :=
  match duration_arith p t Divides pl pr l r with
  | Some (_, x) => Some x
  | None => None
  end.
(** d1 % d2, on durations of the type at chrono.hpp:30-31. *)
Definition duration_mod (p : policy) (t : rep) (pl pr : period) (l r : count) : option (period * res raw) :=
  duration_arith p t Modulus pl pr l r.

(** -d ([time.duration.arithmetic]). On durations of the type at chrono.hpp:30-31. *)
Definition duration_negate (p : policy) (t : rep) (r : raw) : res raw := f_negate p t r.

(** d1 += d2, d1 -= d2, d1 %= d2 ([time.duration.arithmetic]): the argument is converted
    to the type of d1. On durations of the type at chrono.hpp:30-31. *)
Definition duration_assign (p : policy) (t : rep) (op : arith_op) (pl pr : period) (l : raw) (r : count)
  : option (res raw) :=
  match duration_cast p t pr pl r with
  | Some x => Some (do y <- x; f_assign p t op l (FracOperand t y))
  | None => None
  end.

(** std::chrono::abs ([time.duration.alg]): d >= d.zero() ? d : -d, where >= is !(d <
    zero) and zero is Rep(0). On durations of the type at chrono.hpp:30-31. *)
Definition duration_abs (p : policy) (t : rep) (r : raw) : res raw :=
  do neg <- f_cmp p t t Lt (RR r (f_of_int 0));
  if neg : bool then duration_negate p t r else Ok r.

(** std::chrono::floor and ceil to a fractional duration ([time.duration.cast]): the
    cast, corrected by one tick if it is greater (less) than the argument. To durations
    of the type at chrono.hpp:30-31. *)
Definition duration_floor (p : policy) (t : rep) (from to : period) (c : count) : option (res raw) :=
  match duration_cast p t from to c with
  | None => None
  | Some x =>
      match x with
      | UB u => Some (UB u)
      | Ok r =>
          match duration_lt p t from to c (FracCount r) with
          | None => None
          | Some b => Some (do g <- b; if g : bool then f_arith p t t Minus (RR r (f_of_int 1)) else Ok r)
          end
      end
  end.
(** std::chrono::ceil to a duration of the type at chrono.hpp:30-31. *)
Definition duration_ceil (p : policy) (t : rep) (from to : period) (c : count) : option (res raw) :=
  match duration_cast p t from to c with
  | None => None
  | Some x =>
      match x with
      | UB u => Some (UB u)
      | Ok r =>
          match duration_lt p t to from (FracCount r) c with
          | None => None
          | Some b => Some (do g <- b; if g : bool then f_arith p t t Plus (RR r (f_of_int 1)) else Ok r)
          end
      end
  end.

(** Time points ([time.point.nonmember]): tp + d, tp - d and tp - tp are the sums and
    differences of the durations since the epoch; [from] and [pd] are the periods of the
    time point and of the other operand. On time points of the type at chrono.hpp:49-53.
    *)
Definition time_point_plus (p : policy) (t : rep) (from pd : period) (since_epoch d : count) :=
  duration_arith p t Plus from pd since_epoch d.
(** tp - d, on time points of the type at chrono.hpp:49-53. *)
Definition time_point_minus (p : policy) (t : rep) (from pd : period) (since_epoch d : count) :=
  duration_arith p t Minus from pd since_epoch d.
(** tp1 - tp2, on time points of the type at chrono.hpp:49-53. *)
Definition time_point_difference (p : policy) (t : rep) (pl pr : period) (l r : count) :=
  duration_arith p t Minus pl pr l r.

(** duration::zero, min and max ([time.duration.special]), time_point::min and max:
    std::chrono::duration_values<fraction<Rep, Ops>> is the primary template, Rep(0),
    numeric_limits<fraction>::lowest() and max() (limits.hpp:217-229). *)
Definition duration_zero : raw := f_of_int 0.
(** duration::min: limits.hpp:217-222. *)
Definition duration_min (t : rep) : raw := nl_lowest t.
(** duration::max: limits.hpp:224-229. *)
Definition duration_max (t : rep) : raw := nl_max t.
