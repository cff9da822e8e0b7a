(** Specification for C98: programs in which every fraction starts in lowest terms. *)

From Coq Require Import ZArith List Bool.
From Verif Require Import Machine Raw Ops Spec Fraction Program Wide_spec Stack_spec.
Import ListNotations.
Open Scope Z_scope.

(** In lowest terms (or the undefined 0/0), the numerator not the least integer. *)
Definition settled (t : rep) (v : raw) : Prop := wf_raw t v /\ canonical v /\ Z.abs (num v) <= rmax t.
Definition settled_args (t : rep) (a : args) : Prop :=
  match a with
  | RR l r => settled t l /\ settled t r
  | RI l z => settled t l /\ in_rep t z = true
  | IR z r => in_rep t z = true /\ settled t r
  end.

(** The same stack of policies without the layers that reduce operands. *)
Fixpoint no_input (o : ops) : ops :=
  match o with
  | Safe => Safe
  | Fast => Fast
  | ReducedInput o _ => no_input o
  | ReducedOutput o m => ReducedOutput (no_input o) m
  end.
(** At least one output layer normalises signs. *)
Definition normalises_output (o : ops) : Prop := In normalize_signs_mode (output_modes o).

(** The constants of a program are in lowest terms, and a fraction is not made from
    a constant that is the least integer. *)
Fixpoint settled_f (e : fexpr) : Prop :=
  match e with
  | EVar _ => True
  | ELit t r => settled t r
  | EOfInt i => match i with IConst s z => Z.abs z <= rmax s | _ => True end
  | EPos e | ENeg e | EAbs e | EReduce e => settled_f e
  | EBin _ l r => settled_f l /\ settled_f r
  | EBinInt _ l _ => settled_f l
  | EIntBin _ _ r => settled_f r
  end.
Fixpoint settled_b (b : bexpr) : Prop :=
  match b with
  | BCmp _ l r => settled_f l /\ settled_f r
  | BCmpInt _ l _ => settled_f l
  | BIntCmp _ _ r => settled_f r
  | BNot b => settled_b b
  | BAnd a b | BOr a b => settled_b a /\ settled_b b
  end.
Fixpoint settled_s (c : stmt) : Prop :=
  match c with
  | SSkip | SOpAssignInt _ _ _ => True
  | SAssign _ e | SOpAssign _ _ e => settled_f e
  | SSeq a b => settled_s a /\ settled_s b
  | SIf b x y => settled_b b /\ settled_s x /\ settled_s y
  | SWhile b x => settled_b b /\ settled_s x
  end.
Definition settled_store (ty : nat -> rep) (s : store) : Prop := forall x, settled (ty x) (s x).
