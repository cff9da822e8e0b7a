(** Policies instantiated with any mode.

    The template parameter Mode of [reduced_input] and [reduced_output]
    (ops.hpp:307, 458) has the type reduce_mode, a scoped enumeration with the
    values of int, so [reduced_output<safe, reduce_mode(7)>] is a policy too.
    Ops.v has the policies with a named mode; here the mode is any integer and
    every member calls the [reduce] of Modes.v, whose switch has no case for
    the other values. *)

From Coq Require Import ZArith Bool.
From Verif Require Import Machine Raw Ops Modes.
Open Scope Z_scope.

(** reduced_input<Ops, Mode>: every function reduces its fraction operands. *)
(** ops.hpp:1071-1077; note that [negate] reduces with the default mode, not with [mode]. *)
Definition ria_negate (p : policy) (mode : Z) (t : rep) (value : raw)
  : res raw :=
  do v <- reduce_any t value 0;
  p_negate p t v.

(** ops.hpp:1079-1086 *)
Definition ria_plus_rr (p : policy) (mode : Z) (t : rep)
  (left right : raw) : res raw :=
  do l <- reduce_any t left mode;
  do r <- reduce_any t right mode;
  p_plus_rr p t l r.

(** ops.hpp:1088-1095 *)
Definition ria_plus_ri (p : policy) (mode : Z) (t : rep)
  (left : raw) (right : Z) : res raw :=
  do l <- reduce_any t left mode;
  p_plus_ri p t l right.

(** ops.hpp:1097-1104 *)
Definition ria_plus_ir (p : policy) (mode : Z) (t : rep)
  (left : Z) (right : raw) : res raw :=
  do r <- reduce_any t right mode;
  p_plus_ir p t left r.

(** ops.hpp:1106-1113 *)
Definition ria_minus_rr (p : policy) (mode : Z) (t : rep)
  (left right : raw) : res raw :=
  do l <- reduce_any t left mode;
  do r <- reduce_any t right mode;
  p_minus_rr p t l r.

(** ops.hpp:1115-1122 *)
Definition ria_minus_ri (p : policy) (mode : Z) (t : rep)
  (left : raw) (right : Z) : res raw :=
  do l <- reduce_any t left mode;
  p_minus_ri p t l right.

(** ops.hpp:1124-1131 *)
Definition ria_minus_ir (p : policy) (mode : Z) (t : rep)
  (left : Z) (right : raw) : res raw :=
  do r <- reduce_any t right mode;
  p_minus_ir p t left r.

(** ops.hpp:1133-1140 *)
Definition ria_multiplies_rr (p : policy) (mode : Z) (t : rep)
  (left right : raw) : res raw :=
  do l <- reduce_any t left mode;
  do r <- reduce_any t right mode;
  p_multiplies_rr p t l r.

(** ops.hpp:1142-1149 *)
Definition ria_multiplies_ri (p : policy) (mode : Z) (t : rep)
  (left : raw) (right : Z) : res raw :=
  do l <- reduce_any t left mode;
  p_multiplies_ri p t l right.

(** ops.hpp:1151-1158 *)
Definition ria_multiplies_ir (p : policy) (mode : Z) (t : rep)
  (left : Z) (right : raw) : res raw :=
  do r <- reduce_any t right mode;
  p_multiplies_ir p t left r.

(** ops.hpp:1160-1167 *)
Definition ria_divides_rr (p : policy) (mode : Z) (t : rep)
  (left right : raw) : res raw :=
  do l <- reduce_any t left mode;
  do r <- reduce_any t right mode;
  p_divides_rr p t l r.

(** ops.hpp:1169-1176 *)
Definition ria_divides_ri (p : policy) (mode : Z) (t : rep)
  (left : raw) (right : Z) : res raw :=
  do l <- reduce_any t left mode;
  p_divides_ri p t l right.

(** ops.hpp:1178-1185 *)
Definition ria_divides_ir (p : policy) (mode : Z) (t : rep)
  (left : Z) (right : raw) : res raw :=
  do r <- reduce_any t right mode;
  p_divides_ir p t left r.

(** ops.hpp:1187-1194 *)
Definition ria_modulus_rr (p : policy) (mode : Z) (t : rep)
  (left right : raw) : res raw :=
  do l <- reduce_any t left mode;
  do r <- reduce_any t right mode;
  p_modulus_rr p t l r.

(** ops.hpp:1196-1203 *)
Definition ria_modulus_ri (p : policy) (mode : Z) (t : rep)
  (left : raw) (right : Z) : res raw :=
  do l <- reduce_any t left mode;
  p_modulus_ri p t l right.

(** ops.hpp:1205-1212 *)
Definition ria_modulus_ir (p : policy) (mode : Z) (t : rep)
  (left : Z) (right : raw) : res raw :=
  do r <- reduce_any t right mode;
  p_modulus_ir p t left r.

(** ops.hpp:1214-1221 *)
Definition ria_equal_to_rr (p : policy) (mode : Z) (t : rep)
  (left right : raw) : res bool :=
  do l <- reduce_any t left mode;
  do r <- reduce_any t right mode;
  p_equal_to_rr p t l r.

(** ops.hpp:1223-1229 *)
Definition ria_equal_to_ri (p : policy) (mode : Z) (t : rep)
  (left : raw) (right : Z) : res bool :=
  do l <- reduce_any t left mode;
  p_equal_to_ri p t l right.

(** ops.hpp:1231-1238 *)
Definition ria_equal_to_ir (p : policy) (mode : Z) (t : rep)
  (left : Z) (right : raw) : res bool :=
  do r <- reduce_any t right mode;
  p_equal_to_ir p t left r.

(** ops.hpp:1240-1247 *)
Definition ria_not_equal_to_rr (p : policy) (mode : Z) (t : rep)
  (left right : raw) : res bool :=
  do l <- reduce_any t left mode;
  do r <- reduce_any t right mode;
  p_not_equal_to_rr p t l r.

(** ops.hpp:1249-1256 *)
Definition ria_not_equal_to_ri (p : policy) (mode : Z) (t : rep)
  (left : raw) (right : Z) : res bool :=
  do l <- reduce_any t left mode;
  p_not_equal_to_ri p t l right.

(** ops.hpp:1258-1265 *)
Definition ria_not_equal_to_ir (p : policy) (mode : Z) (t : rep)
  (left : Z) (right : raw) : res bool :=
  do r <- reduce_any t right mode;
  p_not_equal_to_ir p t left r.

(** ops.hpp:1267-1274 *)
Definition ria_less_rr (p : policy) (mode : Z) (t : rep)
  (left right : raw) : res bool :=
  do l <- reduce_any t left mode;
  do r <- reduce_any t right mode;
  p_less_rr p t l r.

(** ops.hpp:1276-1282 *)
Definition ria_less_ri (p : policy) (mode : Z) (t : rep)
  (left : raw) (right : Z) : res bool :=
  do l <- reduce_any t left mode;
  p_less_ri p t l right.

(** ops.hpp:1284-1291 *)
Definition ria_less_ir (p : policy) (mode : Z) (t : rep)
  (left : Z) (right : raw) : res bool :=
  do r <- reduce_any t right mode;
  p_less_ir p t left r.

(** ops.hpp:1293-1300 *)
Definition ria_less_equal_rr (p : policy) (mode : Z) (t : rep)
  (left right : raw) : res bool :=
  do l <- reduce_any t left mode;
  do r <- reduce_any t right mode;
  p_less_equal_rr p t l r.

(** ops.hpp:1302-1309 *)
Definition ria_less_equal_ri (p : policy) (mode : Z) (t : rep)
  (left : raw) (right : Z) : res bool :=
  do l <- reduce_any t left mode;
  p_less_equal_ri p t l right.

(** ops.hpp:1311-1318 *)
Definition ria_less_equal_ir (p : policy) (mode : Z) (t : rep)
  (left : Z) (right : raw) : res bool :=
  do r <- reduce_any t right mode;
  p_less_equal_ir p t left r.

(** ops.hpp:1320-1327 *)
Definition ria_greater_rr (p : policy) (mode : Z) (t : rep)
  (left right : raw) : res bool :=
  do l <- reduce_any t left mode;
  do r <- reduce_any t right mode;
  p_greater_rr p t l r.

(** ops.hpp:1329-1335 *)
Definition ria_greater_ri (p : policy) (mode : Z) (t : rep)
  (left : raw) (right : Z) : res bool :=
  do l <- reduce_any t left mode;
  p_greater_ri p t l right.

(** ops.hpp:1337-1344 *)
Definition ria_greater_ir (p : policy) (mode : Z) (t : rep)
  (left : Z) (right : raw) : res bool :=
  do r <- reduce_any t right mode;
  p_greater_ir p t left r.

(** ops.hpp:1346-1353 *)
Definition ria_greater_equal_rr (p : policy) (mode : Z) (t : rep)
  (left right : raw) : res bool :=
  do l <- reduce_any t left mode;
  do r <- reduce_any t right mode;
  p_greater_equal_rr p t l r.

(** ops.hpp:1355-1362 *)
Definition ria_greater_equal_ri (p : policy) (mode : Z) (t : rep)
  (left : raw) (right : Z) : res bool :=
  do l <- reduce_any t left mode;
  p_greater_equal_ri p t l right.

(** ops.hpp:1364-1371 *)
Definition ria_greater_equal_ir (p : policy) (mode : Z) (t : rep)
  (left : Z) (right : raw) : res bool :=
  do r <- reduce_any t right mode;
  p_greater_equal_ir p t left r.

(** ops.hpp:307-455 *)
Definition reduced_input_any (p : policy) (mode : Z) : policy := {|
  p_negate := ria_negate p mode;
  p_plus_rr := ria_plus_rr p mode;
  p_plus_ri := ria_plus_ri p mode;
  p_plus_ir := ria_plus_ir p mode;
  p_minus_rr := ria_minus_rr p mode;
  p_minus_ri := ria_minus_ri p mode;
  p_minus_ir := ria_minus_ir p mode;
  p_multiplies_rr := ria_multiplies_rr p mode;
  p_multiplies_ri := ria_multiplies_ri p mode;
  p_multiplies_ir := ria_multiplies_ir p mode;
  p_divides_rr := ria_divides_rr p mode;
  p_divides_ri := ria_divides_ri p mode;
  p_divides_ir := ria_divides_ir p mode;
  p_modulus_rr := ria_modulus_rr p mode;
  p_modulus_ri := ria_modulus_ri p mode;
  p_modulus_ir := ria_modulus_ir p mode;
  p_equal_to_rr := ria_equal_to_rr p mode;
  p_equal_to_ri := ria_equal_to_ri p mode;
  p_equal_to_ir := ria_equal_to_ir p mode;
  p_not_equal_to_rr := ria_not_equal_to_rr p mode;
  p_not_equal_to_ri := ria_not_equal_to_ri p mode;
  p_not_equal_to_ir := ria_not_equal_to_ir p mode;
  p_less_rr := ria_less_rr p mode;
  p_less_ri := ria_less_ri p mode;
  p_less_ir := ria_less_ir p mode;
  p_less_equal_rr := ria_less_equal_rr p mode;
  p_less_equal_ri := ria_less_equal_ri p mode;
  p_less_equal_ir := ria_less_equal_ir p mode;
  p_greater_rr := ria_greater_rr p mode;
  p_greater_ri := ria_greater_ri p mode;
  p_greater_ir := ria_greater_ir p mode;
  p_greater_equal_rr := ria_greater_equal_rr p mode;
  p_greater_equal_ri := ria_greater_equal_ri p mode;
  p_greater_equal_ir := ria_greater_equal_ir p mode
|}.

(** ops.hpp:1374-1380 *)
Definition roa_negate (p : policy) (mode : Z) (t : rep) (value : raw)
  : res raw :=
  do v <- p_negate p t value;
  reduce_any t v mode.

(** ops.hpp:1382-1388, Left = Right = raw *)
Definition roa_plus_rr (p : policy) (mode : Z) (t : rep)
  (left right : raw) : res raw :=
  do v <- p_plus_rr p t left right;
  reduce_any t v mode.

(** ops.hpp:1382-1388, Left = raw, Right = Rep *)
Definition roa_plus_ri (p : policy) (mode : Z) (t : rep)
  (left : raw) (right : Z) : res raw :=
  do v <- p_plus_ri p t left right;
  reduce_any t v mode.

(** ops.hpp:1382-1388, Left = Rep, Right = raw *)
Definition roa_plus_ir (p : policy) (mode : Z) (t : rep)
  (left : Z) (right : raw) : res raw :=
  do v <- p_plus_ir p t left right;
  reduce_any t v mode.

(** ops.hpp:1390-1396, Left = Right = raw *)
Definition roa_minus_rr (p : policy) (mode : Z) (t : rep)
  (left right : raw) : res raw :=
  do v <- p_minus_rr p t left right;
  reduce_any t v mode.

(** ops.hpp:1390-1396, Left = raw, Right = Rep *)
Definition roa_minus_ri (p : policy) (mode : Z) (t : rep)
  (left : raw) (right : Z) : res raw :=
  do v <- p_minus_ri p t left right;
  reduce_any t v mode.

(** ops.hpp:1390-1396, Left = Rep, Right = raw *)
Definition roa_minus_ir (p : policy) (mode : Z) (t : rep)
  (left : Z) (right : raw) : res raw :=
  do v <- p_minus_ir p t left right;
  reduce_any t v mode.

(** ops.hpp:1398-1405, Left = Right = raw *)
Definition roa_multiplies_rr (p : policy) (mode : Z) (t : rep)
  (left right : raw) : res raw :=
  do v <- p_multiplies_rr p t left right;
  reduce_any t v mode.

(** ops.hpp:1398-1405, Left = raw, Right = Rep *)
Definition roa_multiplies_ri (p : policy) (mode : Z) (t : rep)
  (left : raw) (right : Z) : res raw :=
  do v <- p_multiplies_ri p t left right;
  reduce_any t v mode.

(** ops.hpp:1398-1405, Left = Rep, Right = raw *)
Definition roa_multiplies_ir (p : policy) (mode : Z) (t : rep)
  (left : Z) (right : raw) : res raw :=
  do v <- p_multiplies_ir p t left right;
  reduce_any t v mode.

(** ops.hpp:1407-1413, Left = Right = raw *)
Definition roa_divides_rr (p : policy) (mode : Z) (t : rep)
  (left right : raw) : res raw :=
  do v <- p_divides_rr p t left right;
  reduce_any t v mode.

(** ops.hpp:1407-1413, Left = raw, Right = Rep *)
Definition roa_divides_ri (p : policy) (mode : Z) (t : rep)
  (left : raw) (right : Z) : res raw :=
  do v <- p_divides_ri p t left right;
  reduce_any t v mode.

(** ops.hpp:1407-1413, Left = Rep, Right = raw *)
Definition roa_divides_ir (p : policy) (mode : Z) (t : rep)
  (left : Z) (right : raw) : res raw :=
  do v <- p_divides_ir p t left right;
  reduce_any t v mode.

(** ops.hpp:1415-1421, Left = Right = raw *)
Definition roa_modulus_rr (p : policy) (mode : Z) (t : rep)
  (left right : raw) : res raw :=
  do v <- p_modulus_rr p t left right;
  reduce_any t v mode.

(** ops.hpp:1415-1421, Left = raw, Right = Rep *)
Definition roa_modulus_ri (p : policy) (mode : Z) (t : rep)
  (left : raw) (right : Z) : res raw :=
  do v <- p_modulus_ri p t left right;
  reduce_any t v mode.

(** ops.hpp:1415-1421, Left = Rep, Right = raw *)
Definition roa_modulus_ir (p : policy) (mode : Z) (t : rep)
  (left : Z) (right : raw) : res raw :=
  do v <- p_modulus_ir p t left right;
  reduce_any t v mode.

(** ops.hpp:1423-1429, Left = Right = raw *)
Definition roa_equal_to_rr (p : policy) (mode : Z) (t : rep)
  (left right : raw) : res bool :=
  p_equal_to_rr p t left right.

(** ops.hpp:1423-1429, Left = raw, Right = Rep *)
Definition roa_equal_to_ri (p : policy) (mode : Z) (t : rep)
  (left : raw) (right : Z) : res bool :=
  p_equal_to_ri p t left right.

(** ops.hpp:1423-1429, Left = Rep, Right = raw *)
Definition roa_equal_to_ir (p : policy) (mode : Z) (t : rep)
  (left : Z) (right : raw) : res bool :=
  p_equal_to_ir p t left right.

(** ops.hpp:1431-1438, Left = Right = raw *)
Definition roa_not_equal_to_rr (p : policy) (mode : Z) (t : rep)
  (left right : raw) : res bool :=
  p_not_equal_to_rr p t left right.

(** ops.hpp:1431-1438, Left = raw, Right = Rep *)
Definition roa_not_equal_to_ri (p : policy) (mode : Z) (t : rep)
  (left : raw) (right : Z) : res bool :=
  p_not_equal_to_ri p t left right.

(** ops.hpp:1431-1438, Left = Rep, Right = raw *)
Definition roa_not_equal_to_ir (p : policy) (mode : Z) (t : rep)
  (left : Z) (right : raw) : res bool :=
  p_not_equal_to_ir p t left right.

(** ops.hpp:1440-1446, Left = Right = raw *)
Definition roa_less_rr (p : policy) (mode : Z) (t : rep)
  (left right : raw) : res bool :=
  p_less_rr p t left right.

(** ops.hpp:1440-1446, Left = raw, Right = Rep *)
Definition roa_less_ri (p : policy) (mode : Z) (t : rep)
  (left : raw) (right : Z) : res bool :=
  p_less_ri p t left right.

(** ops.hpp:1440-1446, Left = Rep, Right = raw *)
Definition roa_less_ir (p : policy) (mode : Z) (t : rep)
  (left : Z) (right : raw) : res bool :=
  p_less_ir p t left right.

(** ops.hpp:1448-1455, Left = Right = raw *)
Definition roa_less_equal_rr (p : policy) (mode : Z) (t : rep)
  (left right : raw) : res bool :=
  p_less_equal_rr p t left right.

(** ops.hpp:1448-1455, Left = raw, Right = Rep *)
Definition roa_less_equal_ri (p : policy) (mode : Z) (t : rep)
  (left : raw) (right : Z) : res bool :=
  p_less_equal_ri p t left right.

(** ops.hpp:1448-1455, Left = Rep, Right = raw *)
Definition roa_less_equal_ir (p : policy) (mode : Z) (t : rep)
  (left : Z) (right : raw) : res bool :=
  p_less_equal_ir p t left right.

(** ops.hpp:1457-1463, Left = Right = raw *)
Definition roa_greater_rr (p : policy) (mode : Z) (t : rep)
  (left right : raw) : res bool :=
  p_greater_rr p t left right.

(** ops.hpp:1457-1463, Left = raw, Right = Rep *)
Definition roa_greater_ri (p : policy) (mode : Z) (t : rep)
  (left : raw) (right : Z) : res bool :=
  p_greater_ri p t left right.

(** ops.hpp:1457-1463, Left = Rep, Right = raw *)
Definition roa_greater_ir (p : policy) (mode : Z) (t : rep)
  (left : Z) (right : raw) : res bool :=
  p_greater_ir p t left right.

(** ops.hpp:1465-1472, Left = Right = raw *)
Definition roa_greater_equal_rr (p : policy) (mode : Z) (t : rep)
  (left right : raw) : res bool :=
  p_greater_equal_rr p t left right.

(** ops.hpp:1465-1472, Left = raw, Right = Rep *)
Definition roa_greater_equal_ri (p : policy) (mode : Z) (t : rep)
  (left : raw) (right : Z) : res bool :=
  p_greater_equal_ri p t left right.

(** ops.hpp:1465-1472, Left = Rep, Right = raw *)
Definition roa_greater_equal_ir (p : policy) (mode : Z) (t : rep)
  (left : Z) (right : raw) : res bool :=
  p_greater_equal_ir p t left right.

(** ops.hpp:458-508 *)
Definition reduced_output_any (p : policy) (mode : Z) : policy := {|
  p_negate := roa_negate p mode;
  p_plus_rr := roa_plus_rr p mode;
  p_plus_ri := roa_plus_ri p mode;
  p_plus_ir := roa_plus_ir p mode;
  p_minus_rr := roa_minus_rr p mode;
  p_minus_ri := roa_minus_ri p mode;
  p_minus_ir := roa_minus_ir p mode;
  p_multiplies_rr := roa_multiplies_rr p mode;
  p_multiplies_ri := roa_multiplies_ri p mode;
  p_multiplies_ir := roa_multiplies_ir p mode;
  p_divides_rr := roa_divides_rr p mode;
  p_divides_ri := roa_divides_ri p mode;
  p_divides_ir := roa_divides_ir p mode;
  p_modulus_rr := roa_modulus_rr p mode;
  p_modulus_ri := roa_modulus_ri p mode;
  p_modulus_ir := roa_modulus_ir p mode;
  p_equal_to_rr := roa_equal_to_rr p mode;
  p_equal_to_ri := roa_equal_to_ri p mode;
  p_equal_to_ir := roa_equal_to_ir p mode;
  p_not_equal_to_rr := roa_not_equal_to_rr p mode;
  p_not_equal_to_ri := roa_not_equal_to_ri p mode;
  p_not_equal_to_ir := roa_not_equal_to_ir p mode;
  p_less_rr := roa_less_rr p mode;
  p_less_ri := roa_less_ri p mode;
  p_less_ir := roa_less_ir p mode;
  p_less_equal_rr := roa_less_equal_rr p mode;
  p_less_equal_ri := roa_less_equal_ri p mode;
  p_less_equal_ir := roa_less_equal_ir p mode;
  p_greater_rr := roa_greater_rr p mode;
  p_greater_ri := roa_greater_ri p mode;
  p_greater_ir := roa_greater_ir p mode;
  p_greater_equal_rr := roa_greater_equal_rr p mode;
  p_greater_equal_ri := roa_greater_equal_ri p mode;
  p_greater_equal_ir := roa_greater_equal_ir p mode
|}.

(** The policies of ops.hpp with any template arguments for Mode, a value of int
    (ops.hpp:307-308, 458-459; reduce_mode.hpp:8). *)
Inductive ops_any : Type :=
| AnySafe
| AnyFast
| AnyInput (z : ops_any) (m : Z)
| AnyOutput (z : ops_any) (m : Z).

(** The instance of the class templates at ops.hpp:15, 161, 308 and 459 that such a
    policy names. *)
Fixpoint denote_any (z : ops_any) : policy :=
  match z with
  | AnySafe => safe
  | AnyFast => fast
  | AnyInput z m => reduced_input_any (denote_any z) m
  | AnyOutput z m => reduced_output_any (denote_any z) m
  end.
