(** Specification for C93: when a client program is free of undefined behaviour
    under the default policy, said of the rationals it computes. *)

From Coq Require Import ZArith QArith Bool.
From Verif Require Import Machine Raw Ops Fraction Spec Program Program_spec Defined_spec.
Open Scope Z_scope.

(** The numerator in lowest terms is at most [M] in magnitude.  (It may be the
    least integer of a type, which is -M-1.) *)
Definition bounded (M : Z) (v : option Q) : Prop :=
  match v with Some q => Z.abs (low_num q) <= M | None => True end.

(** One operator between two fractions, or a fraction and an integer. *)
Definition arith_defined (M : Z) (op : arith_op) (a b : option Q) : Prop :=
  bounded M a /\ bounded M b /\
  match a, b with
  | Some x, Some y => enough M op x y
  | _, _ => op = Multiplies \/ op = Divides
  end.
Definition arith_int_defined (M : Z) (op : arith_op) (a : option Q) (z : Z) : Prop :=
  bounded M a /\ match a with Some x => enough M op x (inject_Z z) | None => op <> Modulus end.
Definition int_arith_defined (M : Z) (op : arith_op) (z : Z) (b : option Q) : Prop :=
  bounded M b /\ match b with Some y => enough M op (inject_Z z) y | None => op <> Modulus end.
Definition cmp_defined (M : Z) (a b : option Q) : Prop :=
  bounded M a /\ bounded M b /\
  match a, b with Some x, Some y => common_fits M x y | _, _ => True end.
Definition cmp_int_defined (M : Z) (a : option Q) (z : Z) : Prop :=
  bounded M a /\ match a with Some x => common_fits M x (inject_Z z) | None => True end.
Definition int_cmp_defined (M : Z) (z : Z) (b : option Q) : Prop :=
  bounded M b /\ match b with Some y => common_fits M (inject_Z z) y | None => True end.

(** Every operation of an expression. *)
Fixpoint fdefined (ty : nat -> rep) (q : qstore) (e : fexpr) : Prop :=
  match e with
  | EVar _ | ELit _ _ => True
  | EOfInt i => imeaning q i <> None
  | EPos e => fdefined ty q e
  | ENeg e | EAbs e | EReduce e => fdefined ty q e /\ bounded (rmax (ftype ty e)) (fmeaning q e)
  | EBin op l r => fdefined ty q l /\ fdefined ty q r /\
      arith_defined (rmax (common_rep (ftype ty l) (ftype ty r))) op (fmeaning q l) (fmeaning q r)
  | EBinInt op l i => fdefined ty q l /\ exists z, imeaning q i = Some z /\
      arith_int_defined (rmax (common_rep (ftype ty l) (itype ty i))) op (fmeaning q l) z
  | EIntBin op i r => fdefined ty q r /\ exists z, imeaning q i = Some z /\
      int_arith_defined (rmax (common_rep (itype ty i) (ftype ty r))) op z (fmeaning q r)
  end.
Fixpoint bdefined (ty : nat -> rep) (q : qstore) (b : bexpr) : Prop :=
  match b with
  | BCmp _ l r => fdefined ty q l /\ fdefined ty q r /\
      cmp_defined (rmax (common_rep (ftype ty l) (ftype ty r))) (fmeaning q l) (fmeaning q r)
  | BCmpInt _ l i => fdefined ty q l /\ exists z, imeaning q i = Some z /\
      cmp_int_defined (rmax (common_rep (ftype ty l) (itype ty i))) (fmeaning q l) z
  | BIntCmp _ i r => fdefined ty q r /\ exists z, imeaning q i = Some z /\
      int_cmp_defined (rmax (common_rep (itype ty i) (ftype ty r))) z (fmeaning q r)
  | BNot b => bdefined ty q b
  | BAnd x y => bdefined ty q x /\ (bmeaning q x = true -> bdefined ty q y)
  | BOr x y => bdefined ty q x /\ (bmeaning q x = false -> bdefined ty q y)
  end.

(** The program finishes within [fuel] nested steps, and every operation on the way
    satisfies its condition. *)
Fixpoint run_defined (ty : nat -> rep) (fuel : nat) (q : qstore) (c : stmt) : Prop :=
  match fuel with
  | O => False
  | S fuel =>
      match c with
      | SSkip => True
      | SAssign x e => fdefined ty q e
      | SOpAssign op x e => fdefined ty q e /\ arith_defined (rmax (ty x)) op (q x) (fmeaning q e)
      | SOpAssignInt op x i => exists z, imeaning q i = Some z /\ arith_int_defined (rmax (ty x)) op (q x) z
      | SSeq a b => run_defined ty fuel q a /\ exists q', run fuel q a = Some q' /\ run_defined ty fuel q' b
      | SIf b x y => bdefined ty q b /\ run_defined ty fuel q (if bmeaning q b then x else y)
      | SWhile b x => bdefined ty q b /\
          (bmeaning q b = true ->
           run_defined ty fuel q x /\ exists q', run fuel q x = Some q' /\ run_defined ty fuel q' (SWhile b x))
      end
  end.
