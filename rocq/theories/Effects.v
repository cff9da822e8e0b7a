(** Expressions that contain assignments, evaluated in every order C++ allows.

    The operators of /repo/include/ieme/fraction.hpp take fractions and integers by
    reference to const and assignments return a reference to their left operand
    (fraction.hpp:662-682), so an operand that names a variable is read only when the
    operator is called.  The operands of + - * / % are unsequenced, also when the
    operator is overloaded ([over.match.oper]): their calls may be interleaved.  The
    right operand of = and of the compound assignments is sequenced before the left one
    ([expr.ass]).  A call is one step, since the library's functions call nothing of
    the client's.  Simplifications: a plain assignment is between fractions of the same
    type (a conversion is written out), num() and den() are called on variables and
    results of assignments, comparisons are left out; which undefined behaviour occurs
    is not recorded. *)

From Coq Require Import ZArith Bool.
From Verif Require Import Machine Raw Ops Fraction Fmath Program.
Open Scope Z_scope.

(** Functions of one argument: construction of a fraction from a fraction or an integer
    (fraction.hpp:40, 526-541), unary + and - (fraction.hpp:575-585), abs and reduce
    (fraction_math.hpp:108-133), trunc (fraction_math.hpp:154-158), num() and den()
    (fraction.hpp:52-62). *)
Inductive fun1 : Type :=
| FMake (t : rep)
| FPos
| FNeg
| FAbs
| FReduce
| FTrunc
| FNum
| FDen.

(** Expressions. The first four are values: a reference to a variable, a temporary
    fraction, a reference to a part of a variable (true: the denominator), an integer.
    The operators and functions at fraction.hpp:52-62, 575-688. *)
Inductive term : Type :=
| Var (x : nat)
| Tmp (t : rep) (v : raw)
| Part (d : bool) (x : nat)
| Int (s : rep) (z : Z)
| One (f : fun1) (e : term)
| Bin (op : arith_op) (l r : term)
| Set_ (o : option arith_op) (l e : term).

(** Expressions that no call of fraction.hpp:575-688 is left of. *)
Definition is_value (e : term) : bool :=
  match e with Var _ | Tmp _ _ | Part _ _ | Int _ _ => true | _ => false end.

(** What a value stands for when it is read. A parameter of fraction.hpp:575-688. *)
Inductive arg : Type :=
| AFrac (t : rep) (v : raw)
| AInt (s : rep) (z : Z).
(** Reading a parameter of fraction.hpp:575-688. *)
Definition load (ty : nat -> rep) (s : store) (e : term) : option arg :=
  match e with
  | Var x => Some (AFrac (ty x) (s x))
  | Tmp t v => Some (AFrac t v)
  | Part d x => Some (AInt (ty x) (if d then den (s x) else num (s x)))
  | Int t z => Some (AInt t z)
  | _ => None
  end.

(** A state of the evaluation of one expression. A call of fraction.hpp:575-688 changes
    it. *)
Inductive config : Type :=
| Run (s : store) (e : term)
| Undefined.

(** The object returned by fraction.hpp:575-660. *)
Definition temporary (s : store) (t : rep) (r : res raw) : config :=
  match r with Ok v => Run s (Tmp t v) | UB _ => Undefined end.

(** A call of a function of one argument; [None]: ill-typed. fraction.hpp:40, 52-62,
    526-541, 575-585, fraction_math.hpp:108-133, 154-158. *)
Definition call1 (p : policy) (ty : nat -> rep) (s : store) (f : fun1) (e : term) : option config :=
  match f, e with
  | FNum, Var x => Some (Run s (Part false x))
  | FDen, Var x => Some (Run s (Part true x))
  | _, _ =>
      match f, load ty s e with
      | FMake t, Some (AFrac t' v) => Some (Run s (Tmp t (f_convert t' t v)))
      | FMake t, Some (AInt t' z) => Some (Run s (Tmp t (f_of_int (conv_int t' t z))))
      | FPos, Some (AFrac t v) => Some (Run s (Tmp t (f_posate v)))
      | FNeg, Some (AFrac t v) => Some (temporary s t (f_negate p t v))
      | FAbs, Some (AFrac t v) => Some (temporary s t (f_abs p t v))
      | FReduce, Some (AFrac t v) => Some (temporary s t (reduce t v normalize_signs_mode))
      | FTrunc, Some (AFrac t v) =>
          Some (match f_trunc t v with Ok z => Run s (Int t z) | UB _ => Undefined end)
      | _, _ => None
      end
  end.

(** A call of a binary operator (fraction.hpp:631-660). *)
Definition call2 (p : policy) (ty : nat -> rep) (s : store) (op : arith_op) (l r : term) : option config :=
  match load ty s l, load ty s r with
  | Some (AFrac t a), Some (AFrac u b) => Some (temporary s (common_rep t u) (f_arith p t u op (RR a b)))
  | Some (AFrac t a), Some (AInt u z) => Some (temporary s (common_rep t u) (f_arith p t u op (RI a z)))
  | Some (AInt t z), Some (AFrac u b) => Some (temporary s (common_rep t u) (f_arith p t u op (IR z b)))
  | _, _ => None
  end.

(** A call of the implicit copy assignment or of a compound assignment
    (fraction.hpp:662-688): the operands are read, the variable is written, and the
    result is a reference to it. *)
Definition assigned (s : store) (x : nat) (r : res raw) : config :=
  match r with Ok v => Run (write s x v) (Var x) | UB _ => Undefined end.
(** The call itself: fraction.hpp:662-688. *)
Definition call_set (p : policy) (ty : nat -> rep) (s : store) (o : option arith_op) (l e : term) : option config :=
  match l with
  | Var x =>
      match o, load ty s e with
      | None, Some (AFrac t v) => if rep_eqb t (ty x) then Some (assigned s x (Ok v)) else None
      | Some op, Some (AFrac t v) => Some (assigned s x (f_assign p (ty x) op (s x) (FracOperand t v)))
      | Some op, Some (AInt t z) => Some (assigned s x (f_assign p (ty x) op (s x) (IntOperand t z)))
      | _, _ => None
      end
  | _ => None
  end.

(** The call an expression consists of, once its operands are values.
    fraction.hpp:575-688. *)
Definition call (p : policy) (ty : nat -> rep) (s : store) (e : term) : option config :=
  match e with
  | One f a => call1 p ty s f a
  | Bin op l r => call2 p ty s op l r
  | Set_ o l a => call_set p ty s o l a
  | _ => None
  end.

(** The rest of an expression around an operand that takes a step. Operands of calls of
    fraction.hpp:575-688. *)
Definition plug (k : term -> term) (c : config) : config :=
  match c with Run s e => Run s (k e) | Undefined => Undefined end.

(** One step: a call, or a step in an operand. A call of fraction.hpp:575-688. *)
Inductive step (p : policy) (ty : nat -> rep) : store -> term -> config -> Prop :=
| step_call : forall s e c, call p ty s e = Some c -> step p ty s e c
| step_one : forall s f e c, step p ty s e c -> step p ty s (One f e) (plug (One f) c)
| step_left : forall s op l r c, step p ty s l c -> step p ty s (Bin op l r) (plug (fun l => Bin op l r) c)
| step_right : forall s op l r c, step p ty s r c -> step p ty s (Bin op l r) (plug (Bin op l) c)
| step_set_right : forall s o l e c, step p ty s e c -> step p ty s (Set_ o l e) (plug (Set_ o l) c)
| step_set_left : forall s o l e c, is_value e = true -> step p ty s l c ->
    step p ty s (Set_ o l e) (plug (fun l => Set_ o l e) c).

(** Executions. Client code of fraction.hpp:575-688. *)
Inductive steps (p : policy) (ty : nat -> rep) : config -> config -> Prop :=
| steps_refl : forall c, steps p ty c c
| steps_step : forall s e c c', step p ty s e c -> steps p ty c c' -> steps p ty (Run s e) c'.
