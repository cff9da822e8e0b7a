(** C++ machine integers and undefined behaviour.

    Models the C++20 language/library primitives that the headers under
    /repo/include/ieme use on the template parameter [Rep].  A representation
    is any signed or unsigned integer type at least as wide as [int] (32 bits):
    the arithmetic in ops.hpp does not compile for narrower types, because the
    promoted [int] results are brace-initialised into [raw_fraction<Rep>]
    (raw_fraction.hpp:40-46), which would be a narrowing conversion. *)

From Coq Require Import ZArith Bool.
Open Scope Z_scope.

(** Why an execution is undefined (or, for [OutOfFuel], why the model of a recursive
    function gave up; proved unreachable). The reasons an expression of /repo can be
    undefined, for instance ops.hpp:553-557. *)
Inductive ub : Type :=
| Overflow      (* signed overflow, also min / -1 and min % -1 *)
| DivByZero     (* x / 0 or x % 0 *)
| BadShift      (* shift count not below the width *)
| LibPrecond    (* precondition of std::gcd / std::lcm / string_view violated *)
| OutOfFuel.    (* never reached: see pow_fuel_enough *)

(** What evaluating an expression gives, for instance ops.hpp:553-557. *)
Inductive res (A : Type) : Type :=
| Ok (a : A)
| UB (u : ub).
Arguments Ok {A} a.
Arguments UB {A} u.

(** Evaluating one expression after another, for instance ops.hpp:553-557. *)
Definition bind {A B : Type} (x : res A) (f : A -> res B) : res B :=
  match x with Ok a => f a | UB u => UB u end.

Notation "'do' x <- a ; b" := (bind a (fun x => b))
  (at level 200, x name, a at level 100, b at level 200).

(** An integral type: signedness and number of bits. The template parameter Rep
    (raw_fraction.hpp:13-16). *)
Record rep : Type := mkRep { rsigned : bool; rbits : Z }.

(** The integral types the library can be instantiated with. Simplification:
    raw_fraction.hpp:13 does not restrict Rep. *)
Definition wf_rep (t : rep) : Prop := 32 <= rbits t.

(** int: exponents at fraction_math.hpp:241 and 251, scanned numbers at
    parse_utilities.hpp:19-26. *)
Definition int32 : rep := mkRep true 32.     (* int *)
(** unsigned int: floating_point.hpp:62. *)
Definition uint32 : rep := mkRep false 32.   (* unsigned int *)
(** long and std::intmax_t: fraction.hpp:49. *)
Definition int64 : rep := mkRep true 64.     (* long / std::intmax_t *)
(** unsigned long: floating_point.hpp:70, std::size_t at hash.hpp:80-84. *)
Definition uint64 : rep := mkRep false 64.   (* unsigned long / std::size_t *)

(** std::numeric_limits<Rep>::min() and max(). limits.hpp:160. *)
Definition rmin (t : rep) : Z := if rsigned t then - 2 ^ (rbits t - 1) else 0.
(** std::numeric_limits<Rep>::max(): limits.hpp:154 and 166. *)
Definition rmax (t : rep) : Z :=
  if rsigned t then 2 ^ (rbits t - 1) - 1 else 2 ^ rbits t - 1.

(** [v] is a value of type [t]. The members at raw_fraction.hpp:16 hold such values. *)
Definition in_rep (t : rep) (v : Z) : bool := (rmin t <=? v) && (v <=? rmax t).

(** Conversion to [t] is modulo 2^bits ([conv.integral], C++20). For instance
    raw_fraction.hpp:52-53. *)
Definition wrap (t : rep) (v : Z) : Z :=
  if rsigned t
  then (v + 2 ^ (rbits t - 1)) mod 2 ^ rbits t - 2 ^ (rbits t - 1)
  else v mod 2 ^ rbits t.

(** static_cast<t>(v). For instance raw_fraction.hpp:52-53 and floating_point.hpp:103.
    *)
Definition cast (t : rep) (v : Z) : Z := wrap t v.

(** The result of an arithmetic operator whose exact result is [v] ([expr.pre]/4 for
    signed, [basic.fundamental]/2 for unsigned). For instance ops.hpp:555-556. *)
Definition arith (t : rep) (v : Z) : res Z :=
  if rsigned t then (if in_rep t v then Ok v else UB Overflow)
  else Ok (wrap t v).

(** a + b, for instance ops.hpp:556. *)
Definition m_add (t : rep) (a b : Z) : res Z := arith t (a + b).
(** a - b, for instance ops.hpp:581. *)
Definition m_sub (t : rep) (a b : Z) : res Z := arith t (a - b).
(** a * b, for instance ops.hpp:604. *)
Definition m_mul (t : rep) (a b : Z) : res Z := arith t (a * b).
(** -a, for instance ops.hpp:546. *)
Definition m_neg (t : rep) (a : Z) : res Z := arith t (- a).

(** [expr.mul]/4: truncating division; undefined for a zero divisor or when the quotient
    is not representable (also for %). For instance ops.hpp:555. *)
Definition m_div (t : rep) (a b : Z) : res Z :=
  if b =? 0 then UB DivByZero else arith t (Z.quot a b).
(** a % b, for instance ops.hpp:653. *)
Definition m_rem (t : rep) (a b : Z) : res Z :=
  if b =? 0 then UB DivByZero
  else do _q <- arith t (Z.quot a b); Ok (Z.rem a b).

(** [expr.shift]: value << n. math_utilities.hpp:37, floating_point.hpp:140. *)
Definition m_shl (t : rep) (v n : Z) : res Z :=
  if (0 <=? n) && (n <? rbits t) then Ok (wrap t (v * 2 ^ n)) else UB BadShift.

(** std::gcd / std::lcm ([numeric.ops.gcd], [numeric.ops.lcm]): undefined unless |m| and
    |n| (and the lcm) are representable. raw_fraction_math.hpp:82,
    raw_fraction_queries.hpp:129. *)
Definition std_gcd (t : rep) (m n : Z) : res Z :=
  if in_rep t (Z.abs m) && in_rep t (Z.abs n) then Ok (Z.gcd m n)
  else UB LibPrecond.
(** std::lcm: ops.hpp:553, 578, 650, 678, 726, 753. *)
Definition std_lcm (t : rep) (m n : Z) : res Z :=
  if in_rep t (Z.abs m) && in_rep t (Z.abs n) && in_rep t (Z.lcm m n)
  then Ok (Z.lcm m n)
  else UB LibPrecond.

(** std::make_unsigned_t. math_utilities.hpp:35. *)
Definition make_unsigned (t : rep) : rep := mkRep false (rbits t).

(** std::is_same_v of two representations: fraction.hpp:591-625. *)
Definition rep_eqb (a b : rep) : bool :=
  Bool.eqb (rsigned a) (rsigned b) && (rbits a =? rbits b).

(** std::common_type_t of two integral types of rank at least int: the usual arithmetic
    conversions ([expr.arith.conv]). Simplification: types are identified by signedness
    and width, so rank is width. fraction.hpp:588, mixed_number.hpp:20. *)
Definition common_rep (a b : rep) : rep :=
  if Bool.eqb (rsigned a) (rsigned b)
  then (if rbits a <? rbits b then b else a)
  else
    let u := if rsigned a then b else a in
    let s := if rsigned a then a else b in
    if rbits s <=? rbits u then u else s.
