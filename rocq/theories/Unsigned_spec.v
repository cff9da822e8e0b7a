(** Specification for fractions of unsigned integers. *)

From Coq Require Import ZArith QArith List Bool.
From Verif Require Import Machine Raw Ops Spec Fraction Fraction_spec.
Open Scope Z_scope.

(** An unsigned type of at least the width of int. *)
Definition unsigned_rep (t : rep) : Prop := wf_rep t /\ rsigned t = false.

(** [s] is one bit wider than the unsigned [t] and signed. *)
Definition widens (t s : rep) : Prop :=
  wf_rep t /\ rsigned t = false /\ rsigned s = true /\ rbits s = rbits t + 1.

(** The difference, if the operation is one, is defined and not negative. *)
Definition no_borrow (op : arith_op) (a : args) : Prop :=
  op = Minus -> exists x y, left_value a = Some x /\ right_value a = Some y /\ (y <= x)%Q.

(** The expression subtracts only the smaller from the larger and negates
    nothing. *)
Fixpoint no_borrows (e : expr) : Prop :=
  let ok op l r := op = Minus -> exists x y, l = Some x /\ r = Some y /\ (y <= x)%Q in
  match e with
  | Leaf _ => True
  | Pos e => no_borrows e
  | Neg _ => False
  | Bin op l r => no_borrows l /\ no_borrows r /\ ok op (denotes l) (denotes r)
  | BinInt op l z => no_borrows l /\ ok op (denotes l) (Some (inject_Z z))
  | IntBin op z r => no_borrows r /\ ok op (Some (inject_Z z)) (denotes r)
  end.
