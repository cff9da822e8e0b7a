(** Fractions of types narrower than int.

    The other files take representations of at least the width of int.  fraction<Rep>
    can also be instantiated with a narrower type, whose values are promoted to int
    before every operation ([conv.prom]).  What then compiles is: construction,
    conversion, the operators between two different types whose common type is int or
    wider, and, for one narrow type, the comparisons of policies without
    reduced_input, the queries, reciprocal, normalize_signs, trunc, ceil, floor and
    pow2.  The rest initialises a raw_fraction of the narrow type from ints in braces
    (raw_fraction_math.hpp:84, ops.hpp:546-937), a narrowing conversion, or
    (math_utilities.hpp:47) calls a template with arguments of two types.
    Simplification: int has 32 bits and types are identified by signedness and width.
    Streams of short are in Stream.v, those of 8-bit types in Charstream.v. *)

From Coq Require Import ZArith Bool.
From Verif Require Import Machine Raw Ops Fraction Fmath.
Open Scope Z_scope.

(** [conv.prom]: every narrower type fits in int. For instance the operands at
    ops.hpp:555. *)
Definition promote (t : rep) : rep := if rbits t <? 32 then int32 else t.
(** std::common_type_t: one type is its own common type, otherwise the usual arithmetic
    conversions, which begin with promotion ([expr.arith.conv]). fraction.hpp:588. *)
Definition common_type (a b : rep) : rep :=
  if rep_eqb a b then a else common_rep (promote a) (promote b).

(** fraction.hpp:587-629: conversion of the operands to the common type. *)
Definition nw_args (tl tr : rep) (a : args) : args :=
  let c := common_type tl tr in
  match a with
  | RR l r => RR (conv_raw tl c l) (conv_raw tr c r)
  | RI l r => RI (conv_raw tl c l) (conv_int tr c r)
  | IR l r => IR (conv_int tl c l) (conv_raw tr c r)
  end.

(** fraction.hpp:631-660; [None] if it does not compile. *)
Definition nw_arith (o : ops) (tl tr : rep) (op : arith_op) (a : args) : option (res raw) :=
  let c := common_type tl tr in
  if rbits c <? 32 then None else Some (p_arith (denote o) c op (nw_args tl tr a)).

(** ops.hpp:671-682, 719-730, 746-757 for a narrow type: std::lcm returns that type,
    everything after it is in int. *)
Definition nw_safe_cmp_rr (t : rep) (cmp : Z -> Z -> bool) (left right : raw) : res bool :=
  if is_undefined left || is_undefined right then Ok false
  else
    do lcm <- std_lcm t (den left) (den right);
    do a <- m_div int32 lcm (den left);
    do a <- m_mul int32 a (num left);
    do b <- m_div int32 lcm (den right);
    do b <- m_mul int32 b (num right);
    Ok (cmp a b).
(** ops.hpp:671-813 for a narrow type; without std::lcm everything is in int. *)
Definition nw_safe_cmp (t : rep) (op : cmp_op) (a : args) : res bool :=
  match a with
  | RR l r =>
      match op with
      | Eq => nw_safe_cmp_rr t Z.eqb l r
      | Ne => do b <- nw_safe_cmp_rr t Z.eqb l r; Ok (negb b)
      | Lt => nw_safe_cmp_rr t Z.ltb l r
      | Le => nw_safe_cmp_rr t Z.leb l r
      | Gt => nw_safe_cmp_rr t Z.ltb r l
      | Ge => nw_safe_cmp_rr t Z.leb r l
      end
  | _ => p_cmp safe int32 op a
  end.
(** Comparisons of two operands of one narrow type: ops.hpp:939-1068 in int for fast;
    ops.hpp:1423-1473 forward; reduced_input does not compile. *)
Fixpoint nw_cmp_same (o : ops) (t : rep) (op : cmp_op) (a : args) : option (res bool) :=
  match o with
  | Safe => Some (nw_safe_cmp t op a)
  | Fast => Some (p_cmp fast int32 op a)
  | ReducedInput _ _ => None
  | ReducedOutput o _ => nw_cmp_same o t op a
  end.
(** fraction.hpp:690-718 *)
Definition nw_cmp (o : ops) (tl tr : rep) (op : cmp_op) (a : args) : option (res bool) :=
  let c := common_type tl tr in
  if rbits c <? 32 then nw_cmp_same o c op a else Some (p_cmp (denote o) c op (nw_args tl tr a)).

(** raw_fraction_queries.hpp:111-115 and 117-123: the remainder is in int. *)
Definition nw_is_integer (v : raw) : res bool := is_integer int32 v.
(** raw_fraction_queries.hpp:117-123. *)
Definition nw_is_unit_fraction (v : raw) : res bool := is_unit_fraction int32 v.
(** math_utilities.hpp:26-30: negated in int, converted back. *)
Definition nw_abs (t : rep) (z : Z) : res Z := do a <- mu_abs int32 z; Ok (cast t a).
(** raw_fraction_queries.hpp:141-146 *)
Definition nw_is_proper (t : rep) (v : raw) : res bool :=
  do n <- nw_abs t (num v);
  do d <- nw_abs t (den v);
  Ok (n <? d).
(** raw_fraction_math.hpp:44-51: parentheses, so the ints are converted. *)
Definition nw_normalize_signs (t : rep) (v : raw) : res raw :=
  if den v >? 0 then Ok v
  else
    do n <- m_neg int32 (num v);
    do d <- m_neg int32 (den v);
    Ok (mkRaw (cast t n) (cast t d)).

(** fraction_math.hpp:154-158, 160-167, 169-176: computed in int, converted by return. *)
Definition nw_trunc (t : rep) (v : raw) : res Z := do q <- m_div int32 (num v) (den v); Ok (cast t q).
(** fraction_math.hpp:160-167. *)
Definition nw_ceil (t : rep) (v : raw) : res Z :=
  do truncated <- nw_trunc t v;
  do i <- nw_is_integer v;
  if i || (truncated <? 0) then Ok truncated else do s <- m_add int32 truncated 1; Ok (cast t s).
(** fraction_math.hpp:169-176. *)
Definition nw_floor (t : rep) (v : raw) : res Z :=
  do truncated <- nw_trunc t v;
  do i <- nw_is_integer v;
  if i || (truncated >=? 0) then Ok truncated else do s <- m_sub int32 truncated 1; Ok (cast t s).

(** math_utilities.hpp:32-38: the unsigned one is promoted to int before the shift. *)
Definition nw_mu_pow2 (t : rep) (exponent : Z) : res Z :=
  do s <- m_shl int32 1 (cast (make_unsigned t) exponent);
  Ok (cast t s).
(** fraction_math.hpp:240-248 *)
Definition nw_pow2 (t : rep) (exponent : Z) : res raw :=
  if exponent >=? 0 then
    do n <- nw_mu_pow2 t (cast t exponent);
    Ok (f_of_int n)
  else
    do e <- m_neg int32 exponent;
    do d <- nw_mu_pow2 t (cast t e);
    Ok (mkRaw 1 d).
