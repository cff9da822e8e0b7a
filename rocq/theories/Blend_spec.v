(** Specification for C113: expressions over fractions and integers of different types. *)

From Coq Require Import ZArith QArith List Bool.
From Verif Require Import Machine Raw Ops Spec Fraction Mixed_spec Program.
Import ListNotations.
Open Scope Z_scope.

(** The types of the operands of an expression, from left to right. *)
Fixpoint operand_types (ty : nat -> rep) (e : fexpr) : list rep :=
  match e with
  | EVar x => [ty x]
  | ELit t _ => [t]
  | EOfInt i => [itype ty i]
  | EPos e | ENeg e | EAbs e | EReduce e => operand_types ty e
  | EBin _ l r => operand_types ty l ++ operand_types ty r
  | EBinInt _ l i => operand_types ty l ++ [itype ty i]
  | EIntBin _ i r => itype ty i :: operand_types ty r
  end.

(** [b] is wider than [a], or as wide and, if [a] is unsigned, unsigned as well. *)
Definition below (a b : rep) : Prop :=
  rbits a < rbits b \/ (rbits a = rbits b /\ (rsigned a = true \/ rsigned b = false)).

(** Every operand is a value of its type, and every type on the way to the result is
    signed, apart from those of the operands. *)
Definition sound_i (ty : nat -> rep) (s : store) (i : iexpr) : Prop :=
  match i with
  | IConst t z => 1 < rbits t /\ in_rep t z = true
  | INum x | IDen x | ITrunc x => signed_rep (ty x) /\ wf_raw (ty x) (s x)
  end.
Fixpoint sound (ty : nat -> rep) (s : store) (e : fexpr) : Prop :=
  match e with
  | EVar x => wf_rep (ty x) /\ wf_raw (ty x) (s x)
  | ELit t r => wf_rep t /\ wf_raw t r
  | EOfInt i => sound_i ty s i /\ wf_rep (itype ty i)
  | EPos e => sound ty s e
  | ENeg e | EAbs e | EReduce e => sound ty s e /\ rsigned (ftype ty e) = true
  | EBin _ l r => sound ty s l /\ sound ty s r /\ rsigned (common_rep (ftype ty l) (ftype ty r)) = true
  | EBinInt _ l i => sound ty s l /\ sound_i ty s i /\ rsigned (common_rep (ftype ty l) (itype ty i)) = true
  | EIntBin _ i r => sound_i ty s i /\ sound ty s r /\ rsigned (common_rep (itype ty i) (ftype ty r)) = true
  end.

(** The expression applies only the operator [op] to variables, constants, numerators
    and denominators, in some bracketing. *)
Definition simple (i : iexpr) : Prop := match i with ITrunc _ => False | _ => True end.
Fixpoint only (op : arith_op) (e : fexpr) : Prop :=
  match e with
  | EVar _ | ELit _ _ => True
  | EPos e => only op e
  | EBin op' l r => op' = op /\ only op l /\ only op r
  | EBinInt op' l i => op' = op /\ only op l /\ simple i
  | EIntBin op' i r => op' = op /\ simple i /\ only op r
  | _ => False
  end.

(** Its operands, integers as fractions over 1. *)
Definition term_i (s : store) (i : iexpr) : raw :=
  match i with
  | IConst _ z => mkRaw z 1
  | INum x => mkRaw (num (s x)) 1
  | IDen x => mkRaw (den (s x)) 1
  | ITrunc _ => mkRaw 0 0
  end.
Fixpoint terms (s : store) (e : fexpr) : list raw :=
  match e with
  | EVar x => [s x]
  | ELit _ r => [r]
  | EPos e => terms s e
  | EBin _ l r => terms s l ++ terms s r
  | EBinInt _ l i => terms s l ++ [term_i s i]
  | EIntBin _ i r => term_i s i :: terms s r
  | _ => []
  end.

(** The same expression with every constant of type [t]. *)
Definition retyped_i (t : rep) (i : iexpr) : iexpr :=
  match i with IConst _ z => IConst t z | i => i end.
Fixpoint retyped_f (t : rep) (e : fexpr) : fexpr :=
  match e with
  | EVar x => EVar x
  | ELit _ r => ELit t r
  | EOfInt i => EOfInt (retyped_i t i)
  | EPos e => EPos (retyped_f t e)
  | ENeg e => ENeg (retyped_f t e)
  | EAbs e => EAbs (retyped_f t e)
  | EReduce e => EReduce (retyped_f t e)
  | EBin op l r => EBin op (retyped_f t l) (retyped_f t r)
  | EBinInt op l i => EBinInt op (retyped_f t l) (retyped_i t i)
  | EIntBin op i r => EIntBin op (retyped_i t i) (retyped_f t r)
  end.
