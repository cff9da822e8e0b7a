(** Client code: reductions over a range of fractions.

    The standard library's std::accumulate ([accumulate] in <numeric>, C++20:
    acc = std::move(acc) op *first, from left to right) instantiated with the
    operators of /repo/include/ieme/fraction.hpp:631-660. *)

From Coq Require Import ZArith List.
From Verif Require Import Machine Raw Ops Fraction.
Import ListNotations.

(** std::accumulate(first, last, acc, op) for fractions of one type; the
    operator is that of fraction.hpp:631-660. *)
Fixpoint accumulate (p : policy) (t : rep) (op : arith_op) (acc : raw) (xs : list raw) : res raw :=
  match xs with
  | [] => Ok acc
  | x :: xs => do acc' <- f_arith p t t op (RR acc x); accumulate p t op acc' xs
  end.
