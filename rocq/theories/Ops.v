(** Operation policies.

    Models /repo/include/ieme/ops.hpp.  A policy is a record with one field per
    static member function; the suffixes _rr, _ri, _ir name the overloads
    (raw, raw), (raw, Rep) and (Rep, raw).  [safe] and [fast] are policies;
    [reduced_input] and [reduced_output] map policies to policies, like the C++
    class templates. *)

From Coq Require Import ZArith Bool.
From Verif Require Import Machine Raw.
Open Scope Z_scope.

(** The member functions of an Ops class (ops.hpp:15-508). *)
Record policy : Type := mkPolicy {
  p_negate : rep -> raw -> res raw;
  p_plus_rr : rep -> raw -> raw -> res raw;
  p_plus_ri : rep -> raw -> Z -> res raw;
  p_plus_ir : rep -> Z -> raw -> res raw;
  p_minus_rr : rep -> raw -> raw -> res raw;
  p_minus_ri : rep -> raw -> Z -> res raw;
  p_minus_ir : rep -> Z -> raw -> res raw;
  p_multiplies_rr : rep -> raw -> raw -> res raw;
  p_multiplies_ri : rep -> raw -> Z -> res raw;
  p_multiplies_ir : rep -> Z -> raw -> res raw;
  p_divides_rr : rep -> raw -> raw -> res raw;
  p_divides_ri : rep -> raw -> Z -> res raw;
  p_divides_ir : rep -> Z -> raw -> res raw;
  p_modulus_rr : rep -> raw -> raw -> res raw;
  p_modulus_ri : rep -> raw -> Z -> res raw;
  p_modulus_ir : rep -> Z -> raw -> res raw;
  p_equal_to_rr : rep -> raw -> raw -> res bool;
  p_equal_to_ri : rep -> raw -> Z -> res bool;
  p_equal_to_ir : rep -> Z -> raw -> res bool;
  p_not_equal_to_rr : rep -> raw -> raw -> res bool;
  p_not_equal_to_ri : rep -> raw -> Z -> res bool;
  p_not_equal_to_ir : rep -> Z -> raw -> res bool;
  p_less_rr : rep -> raw -> raw -> res bool;
  p_less_ri : rep -> raw -> Z -> res bool;
  p_less_ir : rep -> Z -> raw -> res bool;
  p_less_equal_rr : rep -> raw -> raw -> res bool;
  p_less_equal_ri : rep -> raw -> Z -> res bool;
  p_less_equal_ir : rep -> Z -> raw -> res bool;
  p_greater_rr : rep -> raw -> raw -> res bool;
  p_greater_ri : rep -> raw -> Z -> res bool;
  p_greater_ir : rep -> Z -> raw -> res bool;
  p_greater_equal_rr : rep -> raw -> raw -> res bool;
  p_greater_equal_ri : rep -> raw -> Z -> res bool;
  p_greater_equal_ir : rep -> Z -> raw -> res bool
}.

(** ops.hpp:542-547 *)
Definition safe_negate (t : rep) (value : raw) : res raw :=
  do n <- m_neg t (num value);
  Ok (mkRaw n (den value)).

(** ops.hpp:549-558 *)
Definition safe_plus_rr (t : rep) (left right : raw) : res raw :=
  do lcm <- std_lcm t (den left) (den right);
  do a <- m_div t lcm (den left);
  do a <- m_mul t a (num left);
  do b <- m_div t lcm (den right);
  do b <- m_mul t b (num right);
  do n <- m_add t a b;
  Ok (mkRaw n lcm).

(** ops.hpp:560-565 *)
Definition safe_plus_ri (t : rep) (left : raw) (right : Z) : res raw :=
  do p <- m_mul t right (den left);
  do n <- m_add t (num left) p;
  Ok (mkRaw n (den left)).

(** ops.hpp:567-572 *)
Definition safe_plus_ir (t : rep) (left : Z) (right : raw) : res raw :=
  safe_plus_ri t right left.

(** ops.hpp:574-583 *)
Definition safe_minus_rr (t : rep) (left right : raw) : res raw :=
  do lcm <- std_lcm t (den left) (den right);
  do a <- m_div t lcm (den left);
  do a <- m_mul t a (num left);
  do b <- m_div t lcm (den right);
  do b <- m_mul t b (num right);
  do n <- m_sub t a b;
  Ok (mkRaw n lcm).

(** ops.hpp:585-590 *)
Definition safe_minus_ri (t : rep) (left : raw) (right : Z) : res raw :=
  do p <- m_mul t right (den left);
  do n <- m_sub t (num left) p;
  Ok (mkRaw n (den left)).

(** ops.hpp:592-597 *)
Definition safe_minus_ir (t : rep) (left : Z) (right : raw) : res raw :=
  do p <- m_mul t left (den right);
  do n <- m_sub t p (num right);
  Ok (mkRaw n (den right)).

(** ops.hpp:599-606 *)
Definition safe_multiplies_rr (t : rep) (left right : raw) : res raw :=
  do n <- m_mul t (num left) (num right);
  do d <- m_mul t (den left) (den right);
  Ok (mkRaw n d).

(** ops.hpp:608-613 *)
Definition safe_multiplies_ri (t : rep) (left : raw) (right : Z) : res raw :=
  do n <- m_mul t (num left) right;
  Ok (mkRaw n (den left)).

(** ops.hpp:615-620 *)
Definition safe_multiplies_ir (t : rep) (left : Z) (right : raw) : res raw :=
  safe_multiplies_ri t right left.

(** ops.hpp:622-629 *)
Definition safe_divides_rr (t : rep) (left right : raw) : res raw :=
  do n <- m_mul t (num left) (den right);
  do d <- m_mul t (den left) (num right);
  Ok (mkRaw n d).

(** ops.hpp:631-636 *)
Definition safe_divides_ri (t : rep) (left : raw) (right : Z) : res raw :=
  do d <- m_mul t (den left) right;
  Ok (mkRaw (num left) d).

(** ops.hpp:638-643 *)
Definition safe_divides_ir (t : rep) (left : Z) (right : raw) : res raw :=
  do n <- m_mul t left (den right);
  Ok (mkRaw n (num right)).

(** ops.hpp:645-655 *)
Definition safe_modulus_rr (t : rep) (left right : raw) : res raw :=
  do lcm <- std_lcm t (den left) (den right);
  do a <- m_div t lcm (den left);
  do a <- m_mul t a (num left);
  do b <- m_div t lcm (den right);
  do b <- m_mul t b (num right);
  do n <- m_rem t a b;
  Ok (mkRaw n lcm).

(** ops.hpp:657-662 *)
Definition safe_modulus_ri (t : rep) (left : raw) (right : Z) : res raw :=
  do p <- m_mul t (den left) right;
  do n <- m_rem t (num left) p;
  Ok (mkRaw n (den left)).

(** ops.hpp:664-669 *)
Definition safe_modulus_ir (t : rep) (left : Z) (right : raw) : res raw :=
  do p <- m_mul t (den right) left;
  do n <- m_rem t p (num right);
  Ok (mkRaw n (den right)).

(** ops.hpp:671-682 *)
Definition safe_equal_to_rr (t : rep) (left right : raw) : res bool :=
  if is_undefined left || is_undefined right then Ok false
  else
    do lcm <- std_lcm t (den left) (den right);
    do a <- m_div t lcm (den left);
    do a <- m_mul t a (num left);
    do b <- m_div t lcm (den right);
    do b <- m_mul t b (num right);
    Ok (a =? b).

(** ops.hpp:684-689 *)
Definition safe_equal_to_ri (t : rep) (left : raw) (right : Z) : res bool :=
  do p <- m_mul t right (den left);
  Ok ((num left =? p) && is_defined left).

(** ops.hpp:691-696 *)
Definition safe_equal_to_ir (t : rep) (left : Z) (right : raw) : res bool :=
  safe_equal_to_ri t right left.

(** ops.hpp:698-703 *)
Definition safe_not_equal_to_rr (t : rep) (left right : raw) : res bool :=
  do b <- safe_equal_to_rr t left right;
  Ok (negb b).

(** ops.hpp:705-710 *)
Definition safe_not_equal_to_ri (t : rep) (left : raw) (right : Z) : res bool :=
  do b <- safe_equal_to_ri t left right;
  Ok (negb b).

(** ops.hpp:712-717 *)
Definition safe_not_equal_to_ir (t : rep) (left : Z) (right : raw) : res bool :=
  safe_not_equal_to_ri t right left.

(** ops.hpp:719-730 *)
Definition safe_less_rr (t : rep) (left right : raw) : res bool :=
  if is_undefined left || is_undefined right then Ok false
  else
    do lcm <- std_lcm t (den left) (den right);
    do a <- m_div t lcm (den left);
    do a <- m_mul t a (num left);
    do b <- m_div t lcm (den right);
    do b <- m_mul t b (num right);
    Ok (a <? b).

(** ops.hpp:732-737 *)
Definition safe_less_ri (t : rep) (left : raw) (right : Z) : res bool :=
  do p <- m_mul t right (den left);
  Ok ((num left <? p) && is_defined left).

(** ops.hpp:739-744 *)
Definition safe_less_ir (t : rep) (left : Z) (right : raw) : res bool :=
  do p <- m_mul t left (den right);
  Ok ((p <? num right) && is_defined right).

(** ops.hpp:746-757 *)
Definition safe_less_equal_rr (t : rep) (left right : raw) : res bool :=
  if is_undefined left || is_undefined right then Ok false
  else
    do lcm <- std_lcm t (den left) (den right);
    do a <- m_div t lcm (den left);
    do a <- m_mul t a (num left);
    do b <- m_div t lcm (den right);
    do b <- m_mul t b (num right);
    Ok (a <=? b).

(** ops.hpp:759-764 *)
Definition safe_less_equal_ri (t : rep) (left : raw) (right : Z) : res bool :=
  do p <- m_mul t right (den left);
  Ok ((num left <=? p) && is_defined left).

(** ops.hpp:766-771 *)
Definition safe_less_equal_ir (t : rep) (left : Z) (right : raw) : res bool :=
  do p <- m_mul t left (den right);
  Ok ((p <=? num right) && is_defined right).

(** ops.hpp:773-778 *)
Definition safe_greater_rr (t : rep) (left right : raw) : res bool :=
  safe_less_rr t right left.

(** ops.hpp:780-785 *)
Definition safe_greater_ri (t : rep) (left : raw) (right : Z) : res bool :=
  safe_less_ir t right left.

(** ops.hpp:787-792 *)
Definition safe_greater_ir (t : rep) (left : Z) (right : raw) : res bool :=
  safe_less_ri t right left.

(** ops.hpp:794-799 *)
Definition safe_greater_equal_rr (t : rep) (left right : raw) : res bool :=
  safe_less_equal_rr t right left.

(** ops.hpp:801-806 *)
Definition safe_greater_equal_ri (t : rep) (left : raw) (right : Z) : res bool :=
  safe_less_equal_ir t right left.

(** ops.hpp:808-813 *)
Definition safe_greater_equal_ir (t : rep) (left : Z) (right : raw) : res bool :=
  safe_less_equal_ri t right left.

(** ops.hpp:15-158 *)
Definition safe : policy := {|
  p_negate := safe_negate;
  p_plus_rr := safe_plus_rr;
  p_plus_ri := safe_plus_ri;
  p_plus_ir := safe_plus_ir;
  p_minus_rr := safe_minus_rr;
  p_minus_ri := safe_minus_ri;
  p_minus_ir := safe_minus_ir;
  p_multiplies_rr := safe_multiplies_rr;
  p_multiplies_ri := safe_multiplies_ri;
  p_multiplies_ir := safe_multiplies_ir;
  p_divides_rr := safe_divides_rr;
  p_divides_ri := safe_divides_ri;
  p_divides_ir := safe_divides_ir;
  p_modulus_rr := safe_modulus_rr;
  p_modulus_ri := safe_modulus_ri;
  p_modulus_ir := safe_modulus_ir;
  p_equal_to_rr := safe_equal_to_rr;
  p_equal_to_ri := safe_equal_to_ri;
  p_equal_to_ir := safe_equal_to_ir;
  p_not_equal_to_rr := safe_not_equal_to_rr;
  p_not_equal_to_ri := safe_not_equal_to_ri;
  p_not_equal_to_ir := safe_not_equal_to_ir;
  p_less_rr := safe_less_rr;
  p_less_ri := safe_less_ri;
  p_less_ir := safe_less_ir;
  p_less_equal_rr := safe_less_equal_rr;
  p_less_equal_ri := safe_less_equal_ri;
  p_less_equal_ir := safe_less_equal_ir;
  p_greater_rr := safe_greater_rr;
  p_greater_ri := safe_greater_ri;
  p_greater_ir := safe_greater_ir;
  p_greater_equal_rr := safe_greater_equal_rr;
  p_greater_equal_ri := safe_greater_equal_ri;
  p_greater_equal_ir := safe_greater_equal_ir
|}.

(** ops.hpp:816-821 *)
Definition fast_negate (t : rep) (value : raw) : res raw :=
  do n <- m_neg t (num value);
  Ok (mkRaw n (den value)).

(** ops.hpp:823-830 *)
Definition fast_plus_rr (t : rep) (left right : raw) : res raw :=
  do a <- m_mul t (num left) (den right);
  do b <- m_mul t (num right) (den left);
  do n <- m_add t a b;
  do d <- m_mul t (den left) (den right);
  Ok (mkRaw n d).

(** ops.hpp:832-837 *)
Definition fast_plus_ri (t : rep) (left : raw) (right : Z) : res raw :=
  do p <- m_mul t right (den left);
  do n <- m_add t (num left) p;
  Ok (mkRaw n (den left)).

(** ops.hpp:839-844 *)
Definition fast_plus_ir (t : rep) (left : Z) (right : raw) : res raw :=
  fast_plus_ri t right left.

(** ops.hpp:846-853 *)
Definition fast_minus_rr (t : rep) (left right : raw) : res raw :=
  do a <- m_mul t (num left) (den right);
  do b <- m_mul t (num right) (den left);
  do n <- m_sub t a b;
  do d <- m_mul t (den left) (den right);
  Ok (mkRaw n d).

(** ops.hpp:855-860 *)
Definition fast_minus_ri (t : rep) (left : raw) (right : Z) : res raw :=
  do p <- m_mul t right (den left);
  do n <- m_sub t (num left) p;
  Ok (mkRaw n (den left)).

(** ops.hpp:862-867 *)
Definition fast_minus_ir (t : rep) (left : Z) (right : raw) : res raw :=
  do p <- m_mul t left (den right);
  do n <- m_sub t p (num right);
  Ok (mkRaw n (den right)).

(** ops.hpp:869-876 *)
Definition fast_multiplies_rr (t : rep) (left right : raw) : res raw :=
  do n <- m_mul t (num left) (num right);
  do d <- m_mul t (den left) (den right);
  Ok (mkRaw n d).

(** ops.hpp:878-883 *)
Definition fast_multiplies_ri (t : rep) (left : raw) (right : Z) : res raw :=
  do n <- m_mul t (num left) right;
  Ok (mkRaw n (den left)).

(** ops.hpp:885-890 *)
Definition fast_multiplies_ir (t : rep) (left : Z) (right : raw) : res raw :=
  fast_multiplies_ri t right left.

(** ops.hpp:892-899 *)
Definition fast_divides_rr (t : rep) (left right : raw) : res raw :=
  do n <- m_mul t (num left) (den right);
  do d <- m_mul t (den left) (num right);
  Ok (mkRaw n d).

(** ops.hpp:901-906 *)
Definition fast_divides_ri (t : rep) (left : raw) (right : Z) : res raw :=
  do d <- m_mul t (den left) right;
  Ok (mkRaw (num left) d).

(** ops.hpp:908-913 *)
Definition fast_divides_ir (t : rep) (left : Z) (right : raw) : res raw :=
  do n <- m_mul t left (den right);
  Ok (mkRaw n (num right)).

(** ops.hpp:915-923 *)
Definition fast_modulus_rr (t : rep) (left right : raw) : res raw :=
  do a <- m_mul t (num left) (den right);
  do b <- m_mul t (num right) (den left);
  do n <- m_rem t a b;
  do d <- m_mul t (den left) (den right);
  Ok (mkRaw n d).

(** ops.hpp:925-930 *)
Definition fast_modulus_ri (t : rep) (left : raw) (right : Z) : res raw :=
  do p <- m_mul t right (den left);
  do n <- m_rem t (num left) p;
  Ok (mkRaw n (den left)).

(** ops.hpp:932-937 *)
Definition fast_modulus_ir (t : rep) (left : Z) (right : raw) : res raw :=
  do p <- m_mul t left (den right);
  do n <- m_rem t p (num right);
  Ok (mkRaw n (den right)).

(** ops.hpp:939-946 *)
Definition fast_equal_to_rr (t : rep) (left right : raw) : res bool :=
  do a <- m_mul t (num left) (den right);
  do b <- m_mul t (num right) (den left);
  Ok ((a =? b) && is_defined left && is_defined right).

(** ops.hpp:948-953 *)
Definition fast_equal_to_ri (t : rep) (left : raw) (right : Z) : res bool :=
  do p <- m_mul t right (den left);
  Ok ((num left =? p) && is_defined left).

(** ops.hpp:955-960 *)
Definition fast_equal_to_ir (t : rep) (left : Z) (right : raw) : res bool :=
  fast_equal_to_ri t right left.

(** ops.hpp:962-967 *)
Definition fast_not_equal_to_rr (t : rep) (left right : raw) : res bool :=
  do b <- fast_equal_to_rr t left right;
  Ok (negb b).

(** ops.hpp:969-974 *)
Definition fast_not_equal_to_ri (t : rep) (left : raw) (right : Z) : res bool :=
  do b <- fast_equal_to_ri t left right;
  Ok (negb b).

(** ops.hpp:976-981 *)
Definition fast_not_equal_to_ir (t : rep) (left : Z) (right : raw) : res bool :=
  do b <- fast_equal_to_ir t left right;
  Ok (negb b).

(** ops.hpp:983-989 *)
Definition fast_less_rr (t : rep) (left right : raw) : res bool :=
  do a <- m_mul t (num left) (den right);
  do b <- m_mul t (num right) (den left);
  Ok ((a <? b) && is_defined left && is_defined right).

(** ops.hpp:991-996 *)
Definition fast_less_ri (t : rep) (left : raw) (right : Z) : res bool :=
  do p <- m_mul t right (den left);
  Ok ((num left <? p) && is_defined left).

(** ops.hpp:998-1003 *)
Definition fast_less_ir (t : rep) (left : Z) (right : raw) : res bool :=
  do p <- m_mul t left (den right);
  Ok ((p <? num right) && is_defined right).

(** ops.hpp:1005-1012 *)
Definition fast_less_equal_rr (t : rep) (left right : raw) : res bool :=
  do a <- m_mul t (num left) (den right);
  do b <- m_mul t (num right) (den left);
  Ok ((a <=? b) && is_defined left && is_defined right).

(** ops.hpp:1014-1019 *)
Definition fast_less_equal_ri (t : rep) (left : raw) (right : Z) : res bool :=
  do p <- m_mul t right (den left);
  Ok ((num left <=? p) && is_defined left).

(** ops.hpp:1021-1026 *)
Definition fast_less_equal_ir (t : rep) (left : Z) (right : raw) : res bool :=
  do p <- m_mul t left (den right);
  Ok ((p <=? num right) && is_defined right).

(** ops.hpp:1028-1033 *)
Definition fast_greater_rr (t : rep) (left right : raw) : res bool :=
  fast_less_rr t right left.

(** ops.hpp:1035-1040 *)
Definition fast_greater_ri (t : rep) (left : raw) (right : Z) : res bool :=
  fast_less_ir t right left.

(** ops.hpp:1042-1047 *)
Definition fast_greater_ir (t : rep) (left : Z) (right : raw) : res bool :=
  fast_less_ri t right left.

(** ops.hpp:1049-1054 *)
Definition fast_greater_equal_rr (t : rep) (left right : raw) : res bool :=
  fast_less_equal_rr t right left.

(** ops.hpp:1056-1061 *)
Definition fast_greater_equal_ri (t : rep) (left : raw) (right : Z) : res bool :=
  fast_less_equal_ir t right left.

(** ops.hpp:1063-1068 *)
Definition fast_greater_equal_ir (t : rep) (left : Z) (right : raw) : res bool :=
  fast_less_equal_ri t right left.

(** ops.hpp:161-304 *)
Definition fast : policy := {|
  p_negate := fast_negate;
  p_plus_rr := fast_plus_rr;
  p_plus_ri := fast_plus_ri;
  p_plus_ir := fast_plus_ir;
  p_minus_rr := fast_minus_rr;
  p_minus_ri := fast_minus_ri;
  p_minus_ir := fast_minus_ir;
  p_multiplies_rr := fast_multiplies_rr;
  p_multiplies_ri := fast_multiplies_ri;
  p_multiplies_ir := fast_multiplies_ir;
  p_divides_rr := fast_divides_rr;
  p_divides_ri := fast_divides_ri;
  p_divides_ir := fast_divides_ir;
  p_modulus_rr := fast_modulus_rr;
  p_modulus_ri := fast_modulus_ri;
  p_modulus_ir := fast_modulus_ir;
  p_equal_to_rr := fast_equal_to_rr;
  p_equal_to_ri := fast_equal_to_ri;
  p_equal_to_ir := fast_equal_to_ir;
  p_not_equal_to_rr := fast_not_equal_to_rr;
  p_not_equal_to_ri := fast_not_equal_to_ri;
  p_not_equal_to_ir := fast_not_equal_to_ir;
  p_less_rr := fast_less_rr;
  p_less_ri := fast_less_ri;
  p_less_ir := fast_less_ir;
  p_less_equal_rr := fast_less_equal_rr;
  p_less_equal_ri := fast_less_equal_ri;
  p_less_equal_ir := fast_less_equal_ir;
  p_greater_rr := fast_greater_rr;
  p_greater_ri := fast_greater_ri;
  p_greater_ir := fast_greater_ir;
  p_greater_equal_rr := fast_greater_equal_rr;
  p_greater_equal_ri := fast_greater_equal_ri;
  p_greater_equal_ir := fast_greater_equal_ir
|}.

(** reduced_input<Ops, Mode>: every function reduces its fraction operands. *)
(** ops.hpp:1071-1077; note that [negate] reduces with the default mode, not with [mode]. *)
Definition ri_negate (p : policy) (mode : reduce_mode) (t : rep) (value : raw)
  : res raw :=
  do v <- reduce t value normalize_signs_mode;
  p_negate p t v.

(** ops.hpp:1079-1086 *)
Definition ri_plus_rr (p : policy) (mode : reduce_mode) (t : rep)
  (left right : raw) : res raw :=
  do l <- reduce t left mode;
  do r <- reduce t right mode;
  p_plus_rr p t l r.

(** ops.hpp:1088-1095 *)
Definition ri_plus_ri (p : policy) (mode : reduce_mode) (t : rep)
  (left : raw) (right : Z) : res raw :=
  do l <- reduce t left mode;
  p_plus_ri p t l right.

(** ops.hpp:1097-1104 *)
Definition ri_plus_ir (p : policy) (mode : reduce_mode) (t : rep)
  (left : Z) (right : raw) : res raw :=
  do r <- reduce t right mode;
  p_plus_ir p t left r.

(** ops.hpp:1106-1113 *)
Definition ri_minus_rr (p : policy) (mode : reduce_mode) (t : rep)
  (left right : raw) : res raw :=
  do l <- reduce t left mode;
  do r <- reduce t right mode;
  p_minus_rr p t l r.

(** ops.hpp:1115-1122 *)
Definition ri_minus_ri (p : policy) (mode : reduce_mode) (t : rep)
  (left : raw) (right : Z) : res raw :=
  do l <- reduce t left mode;
  p_minus_ri p t l right.

(** ops.hpp:1124-1131 *)
Definition ri_minus_ir (p : policy) (mode : reduce_mode) (t : rep)
  (left : Z) (right : raw) : res raw :=
  do r <- reduce t right mode;
  p_minus_ir p t left r.

(** ops.hpp:1133-1140 *)
Definition ri_multiplies_rr (p : policy) (mode : reduce_mode) (t : rep)
  (left right : raw) : res raw :=
  do l <- reduce t left mode;
  do r <- reduce t right mode;
  p_multiplies_rr p t l r.

(** ops.hpp:1142-1149 *)
Definition ri_multiplies_ri (p : policy) (mode : reduce_mode) (t : rep)
  (left : raw) (right : Z) : res raw :=
  do l <- reduce t left mode;
  p_multiplies_ri p t l right.

(** ops.hpp:1151-1158 *)
Definition ri_multiplies_ir (p : policy) (mode : reduce_mode) (t : rep)
  (left : Z) (right : raw) : res raw :=
  do r <- reduce t right mode;
  p_multiplies_ir p t left r.

(** ops.hpp:1160-1167 *)
Definition ri_divides_rr (p : policy) (mode : reduce_mode) (t : rep)
  (left right : raw) : res raw :=
  do l <- reduce t left mode;
  do r <- reduce t right mode;
  p_divides_rr p t l r.

(** ops.hpp:1169-1176 *)
Definition ri_divides_ri (p : policy) (mode : reduce_mode) (t : rep)
  (left : raw) (right : Z) : res raw :=
  do l <- reduce t left mode;
  p_divides_ri p t l right.

(** ops.hpp:1178-1185 *)
Definition ri_divides_ir (p : policy) (mode : reduce_mode) (t : rep)
  (left : Z) (right : raw) : res raw :=
  do r <- reduce t right mode;
  p_divides_ir p t left r.

(** ops.hpp:1187-1194 *)
Definition ri_modulus_rr (p : policy) (mode : reduce_mode) (t : rep)
  (left right : raw) : res raw :=
  do l <- reduce t left mode;
  do r <- reduce t right mode;
  p_modulus_rr p t l r.

(** ops.hpp:1196-1203 *)
Definition ri_modulus_ri (p : policy) (mode : reduce_mode) (t : rep)
  (left : raw) (right : Z) : res raw :=
  do l <- reduce t left mode;
  p_modulus_ri p t l right.

(** ops.hpp:1205-1212 *)
Definition ri_modulus_ir (p : policy) (mode : reduce_mode) (t : rep)
  (left : Z) (right : raw) : res raw :=
  do r <- reduce t right mode;
  p_modulus_ir p t left r.

(** ops.hpp:1214-1221 *)
Definition ri_equal_to_rr (p : policy) (mode : reduce_mode) (t : rep)
  (left right : raw) : res bool :=
  do l <- reduce t left mode;
  do r <- reduce t right mode;
  p_equal_to_rr p t l r.

(** ops.hpp:1223-1229 *)
Definition ri_equal_to_ri (p : policy) (mode : reduce_mode) (t : rep)
  (left : raw) (right : Z) : res bool :=
  do l <- reduce t left mode;
  p_equal_to_ri p t l right.

(** ops.hpp:1231-1238 *)
Definition ri_equal_to_ir (p : policy) (mode : reduce_mode) (t : rep)
  (left : Z) (right : raw) : res bool :=
  do r <- reduce t right mode;
  p_equal_to_ir p t left r.

(** ops.hpp:1240-1247 *)
Definition ri_not_equal_to_rr (p : policy) (mode : reduce_mode) (t : rep)
  (left right : raw) : res bool :=
  do l <- reduce t left mode;
  do r <- reduce t right mode;
  p_not_equal_to_rr p t l r.

(** ops.hpp:1249-1256 *)
Definition ri_not_equal_to_ri (p : policy) (mode : reduce_mode) (t : rep)
  (left : raw) (right : Z) : res bool :=
  do l <- reduce t left mode;
  p_not_equal_to_ri p t l right.

(** ops.hpp:1258-1265 *)
Definition ri_not_equal_to_ir (p : policy) (mode : reduce_mode) (t : rep)
  (left : Z) (right : raw) : res bool :=
  do r <- reduce t right mode;
  p_not_equal_to_ir p t left r.

(** ops.hpp:1267-1274 *)
Definition ri_less_rr (p : policy) (mode : reduce_mode) (t : rep)
  (left right : raw) : res bool :=
  do l <- reduce t left mode;
  do r <- reduce t right mode;
  p_less_rr p t l r.

(** ops.hpp:1276-1282 *)
Definition ri_less_ri (p : policy) (mode : reduce_mode) (t : rep)
  (left : raw) (right : Z) : res bool :=
  do l <- reduce t left mode;
  p_less_ri p t l right.

(** ops.hpp:1284-1291 *)
Definition ri_less_ir (p : policy) (mode : reduce_mode) (t : rep)
  (left : Z) (right : raw) : res bool :=
  do r <- reduce t right mode;
  p_less_ir p t left r.

(** ops.hpp:1293-1300 *)
Definition ri_less_equal_rr (p : policy) (mode : reduce_mode) (t : rep)
  (left right : raw) : res bool :=
  do l <- reduce t left mode;
  do r <- reduce t right mode;
  p_less_equal_rr p t l r.

(** ops.hpp:1302-1309 *)
Definition ri_less_equal_ri (p : policy) (mode : reduce_mode) (t : rep)
  (left : raw) (right : Z) : res bool :=
  do l <- reduce t left mode;
  p_less_equal_ri p t l right.

(** ops.hpp:1311-1318 *)
Definition ri_less_equal_ir (p : policy) (mode : reduce_mode) (t : rep)
  (left : Z) (right : raw) : res bool :=
  do r <- reduce t right mode;
  p_less_equal_ir p t left r.

(** ops.hpp:1320-1327 *)
Definition ri_greater_rr (p : policy) (mode : reduce_mode) (t : rep)
  (left right : raw) : res bool :=
  do l <- reduce t left mode;
  do r <- reduce t right mode;
  p_greater_rr p t l r.

(** ops.hpp:1329-1335 *)
Definition ri_greater_ri (p : policy) (mode : reduce_mode) (t : rep)
  (left : raw) (right : Z) : res bool :=
  do l <- reduce t left mode;
  p_greater_ri p t l right.

(** ops.hpp:1337-1344 *)
Definition ri_greater_ir (p : policy) (mode : reduce_mode) (t : rep)
  (left : Z) (right : raw) : res bool :=
  do r <- reduce t right mode;
  p_greater_ir p t left r.

(** ops.hpp:1346-1353 *)
Definition ri_greater_equal_rr (p : policy) (mode : reduce_mode) (t : rep)
  (left right : raw) : res bool :=
  do l <- reduce t left mode;
  do r <- reduce t right mode;
  p_greater_equal_rr p t l r.

(** ops.hpp:1355-1362 *)
Definition ri_greater_equal_ri (p : policy) (mode : reduce_mode) (t : rep)
  (left : raw) (right : Z) : res bool :=
  do l <- reduce t left mode;
  p_greater_equal_ri p t l right.

(** ops.hpp:1364-1371 *)
Definition ri_greater_equal_ir (p : policy) (mode : reduce_mode) (t : rep)
  (left : Z) (right : raw) : res bool :=
  do r <- reduce t right mode;
  p_greater_equal_ir p t left r.

(** ops.hpp:307-455 *)
Definition reduced_input (p : policy) (mode : reduce_mode) : policy := {|
  p_negate := ri_negate p mode;
  p_plus_rr := ri_plus_rr p mode;
  p_plus_ri := ri_plus_ri p mode;
  p_plus_ir := ri_plus_ir p mode;
  p_minus_rr := ri_minus_rr p mode;
  p_minus_ri := ri_minus_ri p mode;
  p_minus_ir := ri_minus_ir p mode;
  p_multiplies_rr := ri_multiplies_rr p mode;
  p_multiplies_ri := ri_multiplies_ri p mode;
  p_multiplies_ir := ri_multiplies_ir p mode;
  p_divides_rr := ri_divides_rr p mode;
  p_divides_ri := ri_divides_ri p mode;
  p_divides_ir := ri_divides_ir p mode;
  p_modulus_rr := ri_modulus_rr p mode;
  p_modulus_ri := ri_modulus_ri p mode;
  p_modulus_ir := ri_modulus_ir p mode;
  p_equal_to_rr := ri_equal_to_rr p mode;
  p_equal_to_ri := ri_equal_to_ri p mode;
  p_equal_to_ir := ri_equal_to_ir p mode;
  p_not_equal_to_rr := ri_not_equal_to_rr p mode;
  p_not_equal_to_ri := ri_not_equal_to_ri p mode;
  p_not_equal_to_ir := ri_not_equal_to_ir p mode;
  p_less_rr := ri_less_rr p mode;
  p_less_ri := ri_less_ri p mode;
  p_less_ir := ri_less_ir p mode;
  p_less_equal_rr := ri_less_equal_rr p mode;
  p_less_equal_ri := ri_less_equal_ri p mode;
  p_less_equal_ir := ri_less_equal_ir p mode;
  p_greater_rr := ri_greater_rr p mode;
  p_greater_ri := ri_greater_ri p mode;
  p_greater_ir := ri_greater_ir p mode;
  p_greater_equal_rr := ri_greater_equal_rr p mode;
  p_greater_equal_ri := ri_greater_equal_ri p mode;
  p_greater_equal_ir := ri_greater_equal_ir p mode
|}.

(** ops.hpp:1374-1380 *)
Definition ro_negate (p : policy) (mode : reduce_mode) (t : rep) (value : raw)
  : res raw :=
  do v <- p_negate p t value;
  reduce t v mode.

(** ops.hpp:1382-1388, Left = Right = raw *)
Definition ro_plus_rr (p : policy) (mode : reduce_mode) (t : rep)
  (left right : raw) : res raw :=
  do v <- p_plus_rr p t left right;
  reduce t v mode.

(** ops.hpp:1382-1388, Left = raw, Right = Rep *)
Definition ro_plus_ri (p : policy) (mode : reduce_mode) (t : rep)
  (left : raw) (right : Z) : res raw :=
  do v <- p_plus_ri p t left right;
  reduce t v mode.

(** ops.hpp:1382-1388, Left = Rep, Right = raw *)
Definition ro_plus_ir (p : policy) (mode : reduce_mode) (t : rep)
  (left : Z) (right : raw) : res raw :=
  do v <- p_plus_ir p t left right;
  reduce t v mode.

(** ops.hpp:1390-1396, Left = Right = raw *)
Definition ro_minus_rr (p : policy) (mode : reduce_mode) (t : rep)
  (left right : raw) : res raw :=
  do v <- p_minus_rr p t left right;
  reduce t v mode.

(** ops.hpp:1390-1396, Left = raw, Right = Rep *)
Definition ro_minus_ri (p : policy) (mode : reduce_mode) (t : rep)
  (left : raw) (right : Z) : res raw :=
  do v <- p_minus_ri p t left right;
  reduce t v mode.

(** ops.hpp:1390-1396, Left = Rep, Right = raw *)
Definition ro_minus_ir (p : policy) (mode : reduce_mode) (t : rep)
  (left : Z) (right : raw) : res raw :=
  do v <- p_minus_ir p t left right;
  reduce t v mode.

(** ops.hpp:1398-1405, Left = Right = raw *)
Definition ro_multiplies_rr (p : policy) (mode : reduce_mode) (t : rep)
  (left right : raw) : res raw :=
  do v <- p_multiplies_rr p t left right;
  reduce t v mode.

(** ops.hpp:1398-1405, Left = raw, Right = Rep *)
Definition ro_multiplies_ri (p : policy) (mode : reduce_mode) (t : rep)
  (left : raw) (right : Z) : res raw :=
  do v <- p_multiplies_ri p t left right;
  reduce t v mode.

(** ops.hpp:1398-1405, Left = Rep, Right = raw *)
Definition ro_multiplies_ir (p : policy) (mode : reduce_mode) (t : rep)
  (left : Z) (right : raw) : res raw :=
  do v <- p_multiplies_ir p t left right;
  reduce t v mode.

(** ops.hpp:1407-1413, Left = Right = raw *)
Definition ro_divides_rr (p : policy) (mode : reduce_mode) (t : rep)
  (left right : raw) : res raw :=
  do v <- p_divides_rr p t left right;
  reduce t v mode.

(** ops.hpp:1407-1413, Left = raw, Right = Rep *)
Definition ro_divides_ri (p : policy) (mode : reduce_mode) (t : rep)
  (left : raw) (right : Z) : res raw :=
  do v <- p_divides_ri p t left right;
  reduce t v mode.

(** ops.hpp:1407-1413, Left = Rep, Right = raw *)
Definition ro_divides_ir (p : policy) (mode : reduce_mode) (t : rep)
  (left : Z) (right : raw) : res raw :=
  do v <- p_divides_ir p t left right;
  reduce t v mode.

(** ops.hpp:1415-1421, Left = Right = raw *)
Definition ro_modulus_rr (p : policy) (mode : reduce_mode) (t : rep)
  (left right : raw) : res raw :=
  do v <- p_modulus_rr p t left right;
  reduce t v mode.

(** ops.hpp:1415-1421, Left = raw, Right = Rep *)
Definition ro_modulus_ri (p : policy) (mode : reduce_mode) (t : rep)
  (left : raw) (right : Z) : res raw :=
  do v <- p_modulus_ri p t left right;
  reduce t v mode.

(** ops.hpp:1415-1421, Left = Rep, Right = raw *)
Definition ro_modulus_ir (p : policy) (mode : reduce_mode) (t : rep)
  (left : Z) (right : raw) : res raw :=
  do v <- p_modulus_ir p t left right;
  reduce t v mode.

(** ops.hpp:1423-1429, Left = Right = raw *)
Definition ro_equal_to_rr (p : policy) (mode : reduce_mode) (t : rep)
  (left right : raw) : res bool :=
  p_equal_to_rr p t left right.

(** ops.hpp:1423-1429, Left = raw, Right = Rep *)
Definition ro_equal_to_ri (p : policy) (mode : reduce_mode) (t : rep)
  (left : raw) (right : Z) : res bool :=
  p_equal_to_ri p t left right.

(** ops.hpp:1423-1429, Left = Rep, Right = raw *)
Definition ro_equal_to_ir (p : policy) (mode : reduce_mode) (t : rep)
  (left : Z) (right : raw) : res bool :=
  p_equal_to_ir p t left right.

(** ops.hpp:1431-1438, Left = Right = raw *)
Definition ro_not_equal_to_rr (p : policy) (mode : reduce_mode) (t : rep)
  (left right : raw) : res bool :=
  p_not_equal_to_rr p t left right.

(** ops.hpp:1431-1438, Left = raw, Right = Rep *)
Definition ro_not_equal_to_ri (p : policy) (mode : reduce_mode) (t : rep)
  (left : raw) (right : Z) : res bool :=
  p_not_equal_to_ri p t left right.

(** ops.hpp:1431-1438, Left = Rep, Right = raw *)
Definition ro_not_equal_to_ir (p : policy) (mode : reduce_mode) (t : rep)
  (left : Z) (right : raw) : res bool :=
  p_not_equal_to_ir p t left right.

(** ops.hpp:1440-1446, Left = Right = raw *)
Definition ro_less_rr (p : policy) (mode : reduce_mode) (t : rep)
  (left right : raw) : res bool :=
  p_less_rr p t left right.

(** ops.hpp:1440-1446, Left = raw, Right = Rep *)
Definition ro_less_ri (p : policy) (mode : reduce_mode) (t : rep)
  (left : raw) (right : Z) : res bool :=
  p_less_ri p t left right.

(** ops.hpp:1440-1446, Left = Rep, Right = raw *)
Definition ro_less_ir (p : policy) (mode : reduce_mode) (t : rep)
  (left : Z) (right : raw) : res bool :=
  p_less_ir p t left right.

(** ops.hpp:1448-1455, Left = Right = raw *)
Definition ro_less_equal_rr (p : policy) (mode : reduce_mode) (t : rep)
  (left right : raw) : res bool :=
  p_less_equal_rr p t left right.

(** ops.hpp:1448-1455, Left = raw, Right = Rep *)
Definition ro_less_equal_ri (p : policy) (mode : reduce_mode) (t : rep)
  (left : raw) (right : Z) : res bool :=
  p_less_equal_ri p t left right.

(** ops.hpp:1448-1455, Left = Rep, Right = raw *)
Definition ro_less_equal_ir (p : policy) (mode : reduce_mode) (t : rep)
  (left : Z) (right : raw) : res bool :=
  p_less_equal_ir p t left right.

(** ops.hpp:1457-1463, Left = Right = raw *)
Definition ro_greater_rr (p : policy) (mode : reduce_mode) (t : rep)
  (left right : raw) : res bool :=
  p_greater_rr p t left right.

(** ops.hpp:1457-1463, Left = raw, Right = Rep *)
Definition ro_greater_ri (p : policy) (mode : reduce_mode) (t : rep)
  (left : raw) (right : Z) : res bool :=
  p_greater_ri p t left right.

(** ops.hpp:1457-1463, Left = Rep, Right = raw *)
Definition ro_greater_ir (p : policy) (mode : reduce_mode) (t : rep)
  (left : Z) (right : raw) : res bool :=
  p_greater_ir p t left right.

(** ops.hpp:1465-1472, Left = Right = raw *)
Definition ro_greater_equal_rr (p : policy) (mode : reduce_mode) (t : rep)
  (left right : raw) : res bool :=
  p_greater_equal_rr p t left right.

(** ops.hpp:1465-1472, Left = raw, Right = Rep *)
Definition ro_greater_equal_ri (p : policy) (mode : reduce_mode) (t : rep)
  (left : raw) (right : Z) : res bool :=
  p_greater_equal_ri p t left right.

(** ops.hpp:1465-1472, Left = Rep, Right = raw *)
Definition ro_greater_equal_ir (p : policy) (mode : reduce_mode) (t : rep)
  (left : Z) (right : raw) : res bool :=
  p_greater_equal_ir p t left right.

(** ops.hpp:458-508 *)
Definition reduced_output (p : policy) (mode : reduce_mode) : policy := {|
  p_negate := ro_negate p mode;
  p_plus_rr := ro_plus_rr p mode;
  p_plus_ri := ro_plus_ri p mode;
  p_plus_ir := ro_plus_ir p mode;
  p_minus_rr := ro_minus_rr p mode;
  p_minus_ri := ro_minus_ri p mode;
  p_minus_ir := ro_minus_ir p mode;
  p_multiplies_rr := ro_multiplies_rr p mode;
  p_multiplies_ri := ro_multiplies_ri p mode;
  p_multiplies_ir := ro_multiplies_ir p mode;
  p_divides_rr := ro_divides_rr p mode;
  p_divides_ri := ro_divides_ri p mode;
  p_divides_ir := ro_divides_ir p mode;
  p_modulus_rr := ro_modulus_rr p mode;
  p_modulus_ri := ro_modulus_ri p mode;
  p_modulus_ir := ro_modulus_ir p mode;
  p_equal_to_rr := ro_equal_to_rr p mode;
  p_equal_to_ri := ro_equal_to_ri p mode;
  p_equal_to_ir := ro_equal_to_ir p mode;
  p_not_equal_to_rr := ro_not_equal_to_rr p mode;
  p_not_equal_to_ri := ro_not_equal_to_ri p mode;
  p_not_equal_to_ir := ro_not_equal_to_ir p mode;
  p_less_rr := ro_less_rr p mode;
  p_less_ri := ro_less_ri p mode;
  p_less_ir := ro_less_ir p mode;
  p_less_equal_rr := ro_less_equal_rr p mode;
  p_less_equal_ri := ro_less_equal_ri p mode;
  p_less_equal_ir := ro_less_equal_ir p mode;
  p_greater_rr := ro_greater_rr p mode;
  p_greater_ri := ro_greater_ri p mode;
  p_greater_ir := ro_greater_ir p mode;
  p_greater_equal_rr := ro_greater_equal_rr p mode;
  p_greater_equal_ri := ro_greater_equal_ri p mode;
  p_greater_equal_ir := ro_greater_equal_ir p mode
|}.

(** Every policy that can be written with the templates of ops.hpp, and its
    meaning. *)
Inductive ops : Type :=
| Safe
| Fast
| ReducedInput (o : ops) (m : reduce_mode)
| ReducedOutput (o : ops) (m : reduce_mode).

(** The instance of the class templates at ops.hpp:15, 161, 308 and 459 that a policy
    names. *)
Fixpoint denote (o : ops) : policy :=
  match o with
  | Safe => safe
  | Fast => fast
  | ReducedInput o m => reduced_input (denote o) m
  | ReducedOutput o m => reduced_output (denote o) m
  end.

(** ops.hpp:511-516, with the default template arguments for Mode of
    reduced_input (ignore_signs) and reduced_output (normalize_signs). *)
Definition safe_reduced_i : ops := ReducedInput Safe ignore_signs_mode.
(** ops.hpp:512. *)
Definition safe_reduced_o : ops := ReducedOutput Safe normalize_signs_mode.
(** ops.hpp:513. *)
Definition safe_reduced_io : ops := ReducedInput safe_reduced_o ignore_signs_mode.
(** ops.hpp:514. *)
Definition fast_reduced_i : ops := ReducedInput Fast ignore_signs_mode.
(** ops.hpp:515. *)
Definition fast_reduced_o : ops := ReducedOutput Fast normalize_signs_mode.
(** ops.hpp:516. *)
Definition fast_reduced_io : ops := ReducedInput fast_reduced_o ignore_signs_mode.

(** ops.hpp:8,534-535 *)
Definition defaults : ops := safe_reduced_io.

(** Uniform access to the member functions: an operation and operands of one of the
    three overload shapes. The members plus to modulus at ops.hpp:15-160. *)
Inductive arith_op : Type := Plus | Minus | Multiplies | Divides | Modulus.
(** The members equal_to to greater_equal at ops.hpp:15-160. *)
Inductive cmp_op : Type := Eq | Ne | Lt | Le | Gt | Ge.
(** The operands of the three overloads of each member at ops.hpp:15-160. *)
Inductive args : Type :=
| RR (left right : raw)
| RI (left : raw) (right : Z)
| IR (left : Z) (right : raw).

(** A call of one of the members plus to modulus, as at fraction.hpp:587-629. *)
Definition p_arith (p : policy) (t : rep) (op : arith_op) (a : args)
  : res raw :=
  match op, a with
  | Plus, RR l r => p_plus_rr p t l r
  | Plus, RI l r => p_plus_ri p t l r
  | Plus, IR l r => p_plus_ir p t l r
  | Minus, RR l r => p_minus_rr p t l r
  | Minus, RI l r => p_minus_ri p t l r
  | Minus, IR l r => p_minus_ir p t l r
  | Multiplies, RR l r => p_multiplies_rr p t l r
  | Multiplies, RI l r => p_multiplies_ri p t l r
  | Multiplies, IR l r => p_multiplies_ir p t l r
  | Divides, RR l r => p_divides_rr p t l r
  | Divides, RI l r => p_divides_ri p t l r
  | Divides, IR l r => p_divides_ir p t l r
  | Modulus, RR l r => p_modulus_rr p t l r
  | Modulus, RI l r => p_modulus_ri p t l r
  | Modulus, IR l r => p_modulus_ir p t l r
  end.

(** A call of one of the members equal_to to greater_equal, as at fraction.hpp:587-629.
    *)
Definition p_cmp (p : policy) (t : rep) (op : cmp_op) (a : args)
  : res bool :=
  match op, a with
  | Eq, RR l r => p_equal_to_rr p t l r
  | Eq, RI l r => p_equal_to_ri p t l r
  | Eq, IR l r => p_equal_to_ir p t l r
  | Ne, RR l r => p_not_equal_to_rr p t l r
  | Ne, RI l r => p_not_equal_to_ri p t l r
  | Ne, IR l r => p_not_equal_to_ir p t l r
  | Lt, RR l r => p_less_rr p t l r
  | Lt, RI l r => p_less_ri p t l r
  | Lt, IR l r => p_less_ir p t l r
  | Le, RR l r => p_less_equal_rr p t l r
  | Le, RI l r => p_less_equal_ri p t l r
  | Le, IR l r => p_less_equal_ir p t l r
  | Gt, RR l r => p_greater_rr p t l r
  | Gt, RI l r => p_greater_ri p t l r
  | Gt, IR l r => p_greater_ir p t l r
  | Ge, RR l r => p_greater_equal_rr p t l r
  | Ge, RI l r => p_greater_equal_ri p t l r
  | Ge, IR l r => p_greater_equal_ir p t l r
  end.
