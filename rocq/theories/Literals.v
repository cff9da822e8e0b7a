(** Fraction literals.

    Models /repo/include/ieme/fraction_literals.hpp.  long long has 64 bits.
    Simplification: a denominator_literal is its value; whether it is signed is
    a parameter of the operator that needs it. *)

From Coq Require Import ZArith List.
From Verif Require Import Machine Raw Ops Fraction Parse.
Import ListNotations.
Open Scope Z_scope.

(** fraction_literals.hpp:70-74; [n] is the value of the spelled unsigned long
    long. *)
Definition literal_fr (n : Z) : Z := n.
(** fraction_literals.hpp:76-81 *)
Definition literal_posate (v : Z) : Z := v.
(** fraction_literals.hpp:83-88: converted to long long, then negated. *)
Definition literal_negate (v : Z) : res Z := m_neg int64 (cast int64 v).
(** fraction_literals.hpp:90-96 *)
Definition literal_divide_fraction (p : policy) (t : rep) (left : raw) (right : Z) : res raw :=
  f_arith p t t Divides (RI left (cast t right)).
(** fraction_literals.hpp:98-104 *)
Definition literal_divide_int (t : rep) (left right : Z) : raw :=
  mkRaw left (cast t right).

(** fraction_literals.hpp:106-113; [None] is the exception.  intmax_t has 64
    bits.  [string] is the spelling of the literal. *)
Definition literal_dec (string : list Z) : res (option raw) :=
  do result <- string_to_fraction (denote defaults) int64 string;
  Ok (if is_defined result then Some result else None).

(** The C++ expression a1 / b1_fr * a2 / b2_fr * ... parses from the left: ((a1 / b1_fr)
    * a2) / b2_fr and so on (client code). The operators at
    fraction_literals.hpp:76-104. *)
Fixpoint literal_chain_from (p : policy) (t : rep) (acc : raw) (l : list (Z * Z)) : res raw :=
  match l with
  | [] => Ok acc
  | (a, b) :: l =>
      do x <- f_arith p t t Multiplies (RI acc a);
      do y <- literal_divide_fraction p t x (literal_fr b);
      literal_chain_from p t y l
  end.
(** The whole expression of [literal_chain_from], operators at
    fraction_literals.hpp:76-104. *)
Definition literal_chain (p : policy) (t : rep) (a b : Z) (l : list (Z * Z)) : res raw :=
  literal_chain_from p t (literal_divide_int t a (literal_fr b)) l.
