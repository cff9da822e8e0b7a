(** The class template fraction<Rep, Ops> and its operators.

    Models /repo/include/ieme/fraction.hpp.  A fraction<Rep, Ops> holds exactly
    one raw_fraction<Rep> (fraction.hpp:68), so its state is a [raw]; the
    template parameters are passed as [rep] and [policy].  The accessors
    (fraction.hpp:49-64, 551-573) are the projections [num] and [den].
    Simplification: overload resolution and the deleted operators between
    different policies (fraction.hpp:98-104 and similar) are static and not
    modelled. *)

From Coq Require Import ZArith Bool List.
From Verif Require Import Machine Raw Ops.
Import ListNotations.
Open Scope Z_scope.

(** fraction.hpp:36,68: the default constructor. *)
Definition f_default : raw := mkRaw 0 1.
(** fraction.hpp:40,519-524: numerator with the default denominator. *)
Definition f_of_int (n : Z) : raw := mkRaw n 1.

(** Conversion of a raw_fraction / an integer from type [s] to type [t]; the
    same type is not converted (the "if constexpr" of fraction.hpp:587-629). *)
Definition conv_raw (s t : rep) (r : raw) : raw :=
  if rep_eqb s t then r else raw_cast t r.
(** static_cast<common_rep_type> of an integer, not done for that type itself:
    fraction.hpp:607-615, 621-629. *)
Definition conv_int (s t : rep) (z : Z) : Z :=
  if rep_eqb s t then z else cast t z.

(** fraction.hpp:526-541: converting constructors from another representation
    (and another policy): raw_ {other.raw()}, that is raw_fraction.hpp:48-55. *)
Definition f_convert (s t : rep) (r : raw) : raw := conv_raw s t r.

(** fraction.hpp:543-549, std::ratio<N, D> (its num and den are N and D in
    lowest terms with a positive denominator, [ratio.ratio]).  Both list
    initialisations are from constants, so a value that does not fit is a
    compile-time error: [None]. *)
Definition f_of_ratio (t : rep) (N D : Z) : option raw :=
  let n := Z.sgn D * N / Z.gcd N D in
  let d := Z.abs D / Z.gcd N D in
  if in_rep t n && in_rep t d then Some (mkRaw n d) else None.

(** fraction.hpp:575-579 *)
Definition f_posate (v : raw) : raw := v.
(** fraction.hpp:581-585 *)
Definition f_negate (p : policy) (t : rep) (v : raw) : res raw := p_negate p t v.

(** fraction.hpp:587-629: both operands are converted to the common type. *)
Definition common_args (tl tr : rep) (a : args) : args :=
  let c := common_rep tl tr in
  match a with
  | RR l r => RR (conv_raw tl c l) (conv_raw tr c r)
  | RI l r => RI (conv_raw tl c l) (conv_int tr c r)
  | IR l r => IR (conv_int tl c l) (conv_raw tr c r)
  end.

(** fraction.hpp:631-660: operators + - * / % for a left operand of type [tl]
    and a right operand of type [tr]. *)
Definition f_arith (p : policy) (tl tr : rep) (op : arith_op) (a : args) : res raw :=
  p_arith p (common_rep tl tr) op (common_args tl tr a).

(** fraction.hpp:690-718: comparison operators. *)
Definition f_cmp (p : policy) (tl tr : rep) (op : cmp_op) (a : args) : res bool :=
  p_cmp p (common_rep tl tr) op (common_args tl tr a).

(** The right operand of a compound assignment and its representation.
    fraction.hpp:662-682. *)
Inductive operand : Type :=
| FracOperand (s : rep) (r : raw)
| IntOperand (s : rep) (z : Z).

(** fraction.hpp:662-688: left = left op (right converted to the left type). *)
Definition f_assign (p : policy) (t : rep) (op : arith_op) (l : raw) (x : operand) : res raw :=
  match x with
  | FracOperand s r => f_arith p t t op (RR l (conv_raw s t r))
  | IntOperand s z => f_arith p t t op (RI l (conv_int s t z))
  end.

(** A sequence of compound assignments to one fraction (client code). Each is a call of
    fraction.hpp:662-682. *)
Fixpoint f_assign_all (p : policy) (t : rep) (l : raw) (xs : list (arith_op * operand)) : res raw :=
  match xs with
  | [] => Ok l
  | (op, x) :: xs => do l <- f_assign p t op l x; f_assign_all p t l xs
  end.

(** An expression over fractions and integers of one representation (client code); the
    operands are evaluated before the operator is applied. The operators at
    fraction.hpp:575-660. *)
Inductive expr : Type :=
| Leaf (r : raw)
| Pos (e : expr)
| Neg (e : expr)
| Bin (op : arith_op) (l r : expr)
| BinInt (op : arith_op) (l : expr) (z : Z)
| IntBin (op : arith_op) (z : Z) (r : expr).

(** Calls of the operators at fraction.hpp:575-660. *)
Fixpoint eval (p : policy) (t : rep) (e : expr) : res raw :=
  match e with
  | Leaf r => Ok r
  | Pos e => do v <- eval p t e; Ok (f_posate v)
  | Neg e => do v <- eval p t e; f_negate p t v
  | Bin op l r => do x <- eval p t l; do y <- eval p t r; f_arith p t t op (RR x y)
  | BinInt op l z => do x <- eval p t l; f_arith p t t op (RI x z)
  | IntBin op z r => do y <- eval p t r; f_arith p t t op (IR z y)
  end.
