(** Fractional durations, time points and clocks.

    Models /repo/include/ieme/chrono.hpp together with the parts of
    std::chrono::duration its aliases instantiate: a fractional duration is
    std::chrono::duration<fraction<Rep, Ops>, Period> (chrono.hpp:30-31), a time
    point is its duration since the epoch of the clock (chrono.hpp:49-53).
    treat_as_floating_point (chrono.hpp:17-19) makes every conversion to a
    fractional duration implicit, so the conversions below always exist.
    Periods are template arguments; [None] is a compile-time error. *)

From Coq Require Import ZArith List Bool.
From Verif Require Import Machine Raw Ops Fraction.
Open Scope Z_scope.

(** A std::ratio: num/den in lowest terms, den positive, intmax_t of 64 bits. The
    parameter Period at chrono.hpp:30. *)
Record period : Type := mkPeriod { pnum : Z; pden : Z }.

(** std::ratio<N, D> with both arguments positive. The parameter Period at
    chrono.hpp:30. *)
Definition make_ratio (n d : Z) : option period :=
  let g := Z.gcd n d in
  if in_rep int64 (n / g) && in_rep int64 (d / g)
  then Some (mkPeriod (n / g) (d / g)) else None.

(** std::ratio_divide ([ratio.arithmetic]). Used by the conversion at chrono.hpp:96. *)
Definition ratio_divide (a b : period) : option period :=
  make_ratio (pnum a * pden b) (pden a * pnum b).

(** The period of std::common_type of two durations ([time.traits.specializations]): the
    greatest ratio both periods are multiples of. For durations of the type at
    chrono.hpp:30-31. *)
Definition common_period (a b : period) : option period :=
  make_ratio (Z.gcd (pnum a) (pnum b)) (Z.lcm (pden a) (pden b)).

(** The count of a duration: an integer of some type or a fraction of the same
    representation (durations of fractions of different representations have no common
    type and do not convert). The type at chrono.hpp:30-31. *)
Inductive count : Type :=
| IntCount (s : rep) (z : Z)
| FracCount (r : raw).

(** static_cast<CR>(d.count()): CR, the common type of the fraction, the other
    representation and intmax_t, is fraction<Rep, Ops> (fraction.hpp:40 is the
    implicit conversion). *)
Definition to_cr (t : rep) (c : count) : raw :=
  match c with
  | IntCount s z => f_of_int (conv_int s t z)
  | FracCount r => r
  end.

(** std::chrono::duration_cast to a fractional duration ([time.duration.cast]), which is
    what the converting constructor of duration applies ([time.duration.cons]). The
    conversion at chrono.hpp:96. *)
Definition duration_cast (p : policy) (t : rep) (from to : period) (c : count) : option (res raw) :=
  match ratio_divide from to with
  | None => None
  | Some cf =>
      let num := f_of_int (conv_int int64 t (pnum cf)) in
      let den := f_of_int (conv_int int64 t (pden cf)) in
      Some
        (if (pnum cf =? 1) && (pden cf =? 1) then Ok (to_cr t c)
         else if pnum cf =? 1 then f_arith p t t Divides (RR (to_cr t c) den)
         else if pden cf =? 1 then f_arith p t t Multiplies (RR (to_cr t c) num)
         else
           do x <- f_arith p t t Multiplies (RR (to_cr t c) num);
           f_arith p t t Divides (RR x den))
  end.

(** chrono.hpp:92-97, and chrono.hpp:99-106 on the duration since the epoch:
    same representation and period. *)
Definition to_fractional (p : policy) (t : rep) (pd : period) (z : Z) : option (res raw) :=
  duration_cast p t pd pd (IntCount t z).

(** chrono.hpp:85: the time point of the wrapped clock, converted. *)
Definition clock_wrapper_now (p : policy) (t : rep) (clock_period pd : period) (ticks : Z) : option (res raw) :=
  duration_cast p t clock_period pd (IntCount t ticks).

(** operator+ and operator- on durations ([time.duration.nonmember]): both operands are
    converted to the common duration. On durations of the type at chrono.hpp:30-31. *)
Definition duration_arith (p : policy) (t : rep) (op : arith_op) (pl pr : period) (l r : count)
  : option (period * res raw) :=
  match common_period pl pr with
  | None => None
  | Some pc =>
      match duration_cast p t pl pc l, duration_cast p t pr pc r with
      | Some x, Some y =>
          Some (pc, do a <- x; do b <- y; f_arith p t t op (RR a b))
      | _, _ => None
      end
  end.

(** Comparison operators on durations ([time.duration.comparisons]): == and < on the
    counts of the common duration; the others are derived from them. On durations of the
    type at chrono.hpp:30-31. *)
Definition duration_lt (p : policy) (t : rep) (pl pr : period) (l r : count) : option (res bool) :=
  match common_period pl pr with
  | None => None
  | Some pc =>
      match duration_cast p t pl pc l, duration_cast p t pr pc r with
      | Some x, Some y => Some (do a <- x; do b <- y; f_cmp p t t Lt (RR a b))
      | _, _ => None
      end
  end.
(** operator== on durations of the type at chrono.hpp:30-31
    ([time.duration.comparisons]). *)
Definition duration_eq (p : policy) (t : rep) (pl pr : period) (l r : count) : option (res bool) :=
  match common_period pl pr with
  | None => None
  | Some pc =>
      match duration_cast p t pl pc l, duration_cast p t pr pc r with
      | Some x, Some y => Some (do a <- x; do b <- y; f_cmp p t t Eq (RR a b))
      | _, _ => None
      end
  end.
(** operator<= on durations of the type at chrono.hpp:30-31, which is !(r < l). *)
Definition duration_le (p : policy) (t : rep) (pl pr : period) (l r : count) : option (res bool) :=
  match duration_lt p t pr pl r l with
  | Some x => Some (do b <- x; Ok (negb b))
  | None => None
  end.
