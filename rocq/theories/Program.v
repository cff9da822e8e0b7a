(** Client programs: variables of type fraction<Rep, Ops>, expressions,
    conditions, assignments, branches and loops over the library's API.

    Every construct is one library call of /repo/include/ieme/fraction.hpp,
    fraction_math.hpp or raw_fraction_math.hpp (cited below); the control
    structure is ordinary C++.  Variables are memory cells, so a statement such
    as [x += x.num()] reads and writes the same cell: the model keeps the order
    "evaluate the right-hand side, then write" of fraction.hpp:662-682.
    Simplification: the variables of one program share one policy (operators
    between different policies are deleted, fraction.hpp:98-104); evaluation
    of the operands has no side effects, so their order is immaterial (Effects.v
    models operands that assign). *)

From Coq Require Import ZArith Bool.
From Verif Require Import Machine Raw Ops Fraction Fmath.
Open Scope Z_scope.

(** Memory: the contents of each variable. The type of a variable is given by [ty : nat
    -> rep], its Rep. Each is an object of fraction.hpp:28-66. *)
Definition store : Type := nat -> raw.

(** Writing a variable: the implicit copy assignment of fraction. Of the class at
    fraction.hpp:28-66. *)
Definition write (s : store) (x : nat) (v : raw) : store :=
  fun y => if Nat.eqb y x then v else s y.

(** Integers: a constant of type [s], x.num(), x.den() (fraction.hpp:52-62),
    trunc(x) (fraction_math.hpp:154-158). *)
Inductive iexpr : Type :=
| IConst (s : rep) (z : Z)
| INum (x : nat)
| IDen (x : nat)
| ITrunc (x : nat).

(** Fractions: a variable, a constant of representation [t], a fraction made
    from an integer (fraction.hpp:40), unary + and - (fraction.hpp:575-585), abs
    (fraction_math.hpp), reduce (fraction_math.hpp), the operators between two
    fractions, a fraction and an integer, an integer and a fraction
    (fraction.hpp:631-660). *)
Inductive fexpr : Type :=
| EVar (x : nat)
| ELit (t : rep) (r : raw)
| EOfInt (i : iexpr)
| EPos (e : fexpr)
| ENeg (e : fexpr)
| EAbs (e : fexpr)
| EReduce (e : fexpr)
| EBin (op : arith_op) (l r : fexpr)
| EBinInt (op : arith_op) (l : fexpr) (i : iexpr)
| EIntBin (op : arith_op) (i : iexpr) (r : fexpr).

(** Conditions: the comparison operators (fraction.hpp:690-718) and !, &&, ||. *)
Inductive bexpr : Type :=
| BCmp (op : cmp_op) (l r : fexpr)
| BCmpInt (op : cmp_op) (l : fexpr) (i : iexpr)
| BIntCmp (op : cmp_op) (i : iexpr) (r : fexpr)
| BNot (b : bexpr)
| BAnd (a b : bexpr)
| BOr (a b : bexpr).

(** Statements: x = e, x op= e, x op= i (fraction.hpp:662-688), sequence, if,
    while. *)
Inductive stmt : Type :=
| SSkip
| SAssign (x : nat) (e : fexpr)
| SOpAssign (op : arith_op) (x : nat) (e : fexpr)
| SOpAssignInt (op : arith_op) (x : nat) (i : iexpr)
| SSeq (a b : stmt)
| SIf (c : bexpr) (a b : stmt)
| SWhile (c : bexpr) (a : stmt).

(** The C++ type (Rep) of an expression: operators give the common type
    (fraction.hpp:631-660). *)
Definition itype (ty : nat -> rep) (i : iexpr) : rep :=
  match i with IConst s _ => s | INum x | IDen x | ITrunc x => ty x end.
(** The return types at fraction.hpp:575-660. *)
Fixpoint ftype (ty : nat -> rep) (e : fexpr) : rep :=
  match e with
  | EVar x => ty x
  | ELit t _ => t
  | EOfInt i => itype ty i
  | EPos e | ENeg e | EAbs e | EReduce e => ftype ty e
  | EBin _ l r => common_rep (ftype ty l) (ftype ty r)
  | EBinInt _ l i => common_rep (ftype ty l) (itype ty i)
  | EIntBin _ i r => common_rep (itype ty i) (ftype ty r)
  end.

(** Evaluation of an integer (see [iexpr]). The calls at fraction.hpp:52-62 and
    fraction_math.hpp:154-158. *)
Definition ieval (ty : nat -> rep) (s : store) (i : iexpr) : res Z :=
  match i with
  | IConst _ z => Ok z
  | INum x => Ok (num (s x))
  | IDen x => Ok (den (s x))
  | ITrunc x => f_trunc (ty x) (s x)
  end.

(** Evaluation of a fraction: the calls listed at [fexpr]. fraction.hpp:575-660. *)
Fixpoint feval (p : policy) (ty : nat -> rep) (s : store) (e : fexpr) : res raw :=
  match e with
  | EVar x => Ok (s x)
  | ELit _ r => Ok r
  | EOfInt i => do z <- ieval ty s i; Ok (f_of_int z)
  | EPos e => do v <- feval p ty s e; Ok (f_posate v)
  | ENeg e => do v <- feval p ty s e; f_negate p (ftype ty e) v
  | EAbs e => do v <- feval p ty s e; f_abs p (ftype ty e) v
  | EReduce e => do v <- feval p ty s e; reduce (ftype ty e) v normalize_signs_mode
  | EBin op l r =>
      do x <- feval p ty s l;
      do y <- feval p ty s r;
      f_arith p (ftype ty l) (ftype ty r) op (RR x y)
  | EBinInt op l i =>
      do x <- feval p ty s l;
      do z <- ieval ty s i;
      f_arith p (ftype ty l) (itype ty i) op (RI x z)
  | EIntBin op i r =>
      do z <- ieval ty s i;
      do y <- feval p ty s r;
      f_arith p (itype ty i) (ftype ty r) op (IR z y)
  end.

(** Evaluation of a condition; && and || do not evaluate their right operand when the
    left one decides. fraction.hpp:690-718. *)
Fixpoint beval (p : policy) (ty : nat -> rep) (s : store) (b : bexpr) : res bool :=
  match b with
  | BCmp op l r =>
      do x <- feval p ty s l;
      do y <- feval p ty s r;
      f_cmp p (ftype ty l) (ftype ty r) op (RR x y)
  | BCmpInt op l i =>
      do x <- feval p ty s l;
      do z <- ieval ty s i;
      f_cmp p (ftype ty l) (itype ty i) op (RI x z)
  | BIntCmp op i r =>
      do z <- ieval ty s i;
      do y <- feval p ty s r;
      f_cmp p (itype ty i) (ftype ty r) op (IR z y)
  | BNot b => do v <- beval p ty s b; Ok (negb v)
  | BAnd a b => do v <- beval p ty s a; if v then beval p ty s b else Ok false
  | BOr a b => do v <- beval p ty s a; if v then Ok true else beval p ty s b
  end.

(** Execution.  [None]: not finished within [fuel] nested steps.  Assignment
    converts to the type of the variable (fraction.hpp:526-532); compound
    assignment is [f_assign] (fraction.hpp:662-688). *)
Fixpoint exec (p : policy) (ty : nat -> rep) (fuel : nat) (s : store) (c : stmt)
  : option (res store) :=
  match fuel with
  | O => None
  | S fuel =>
      match c with
      | SSkip => Some (Ok s)
      | SAssign x e =>
          Some (do v <- feval p ty s e; Ok (write s x (f_convert (ftype ty e) (ty x) v)))
      | SOpAssign op x e =>
          Some (do v <- feval p ty s e;
                do r <- f_assign p (ty x) op (s x) (FracOperand (ftype ty e) v);
                Ok (write s x r))
      | SOpAssignInt op x i =>
          Some (do z <- ieval ty s i;
                do r <- f_assign p (ty x) op (s x) (IntOperand (itype ty i) z);
                Ok (write s x r))
      | SSeq a b =>
          match exec p ty fuel s a with
          | Some (Ok s') => exec p ty fuel s' b
          | r => r
          end
      | SIf c a b =>
          match beval p ty s c with
          | Ok v => exec p ty fuel s (if v then a else b)
          | UB u => Some (UB u)
          end
      | SWhile b a =>
          match beval p ty s b with
          | Ok true =>
              match exec p ty fuel s a with
              | Some (Ok s') => exec p ty fuel s' (SWhile b a)
              | r => r
              end
          | Ok false => Some (Ok s)
          | UB u => Some (UB u)
          end
      end
  end.
