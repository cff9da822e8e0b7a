(** A client algorithm: continued fractions.

    The quotients of x are collected by taking the integer part with trunc
    (/repo/include/ieme/fraction_math.hpp:154-158), subtracting it
    (fraction.hpp:640-646), and going on with the reciprocal of the rest
    (fraction_math.hpp:94-99) until is_zero (fraction_queries.hpp:87-91) says that
    nothing is left; x is rebuilt from them by + (fraction.hpp:648-654) and
    reciprocal.  Simplification: the list of quotients is a value, not a container of
    the client. *)

From Coq Require Import ZArith List Bool.
From Verif Require Import Machine Raw Ops Fraction Fmath.
Import ListNotations.
Open Scope Z_scope.

(** for (;;) { Rep a = trunc(x); out.push_back(a); x = x - a; if (is_zero(x)) break;
    x = reciprocal(x); }  [None]: still running after [fuel] rounds.
    Calls fraction_math.hpp:154-158, fraction.hpp:640-646, fraction_queries.hpp:87-91,
    fraction_math.hpp:94-99. *)
Fixpoint quotients (p : policy) (t : rep) (fuel : nat) (x : raw) : option (res (list Z)) :=
  match fuel with
  | O => None
  | S fuel =>
      match f_trunc t x with
      | UB u => Some (UB u)
      | Ok a =>
          match f_arith p t t Minus (RI x a) with
          | UB u => Some (UB u)
          | Ok y =>
              if is_zero y then Some (Ok [a])
              else
                match quotients p t fuel (reciprocal y) with
                | Some (Ok l) => Some (Ok (a :: l))
                | r => r
                end
          end
      end
  end.

(** From the last quotient on: x = a + reciprocal(x). Calls fraction.hpp:40 for the last
    one, then fraction_math.hpp:94-99 and fraction.hpp:648-654. *)
Fixpoint rebuild (p : policy) (t : rep) (l : list Z) : res raw :=
  match l with
  | [] => Ok f_default
  | [a] => Ok (f_of_int a)
  | a :: l =>
      do x <- rebuild p t l;
      f_arith p t t Plus (IR a (reciprocal x))
  end.
