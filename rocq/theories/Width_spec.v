(** Specification for C109: what makes a program undefined whatever the width of its
    integers. *)

From Coq Require Import ZArith QArith Bool.
From Verif Require Import Machine Raw Ops Spec Mixed_spec Program Program_spec.
Open Scope Z_scope.

(** The program with all its constants of type [t]. *)
Definition retype_i (t : rep) (i : iexpr) : iexpr :=
  match i with IConst _ z => IConst t z | _ => i end.
Fixpoint retype_f (t : rep) (e : fexpr) : fexpr :=
  match e with
  | EVar x => EVar x
  | ELit _ r => ELit t r
  | EOfInt i => EOfInt (retype_i t i)
  | EPos e => EPos (retype_f t e)
  | ENeg e => ENeg (retype_f t e)
  | EAbs e => EAbs (retype_f t e)
  | EReduce e => EReduce (retype_f t e)
  | EBin op l r => EBin op (retype_f t l) (retype_f t r)
  | EBinInt op l i => EBinInt op (retype_f t l) (retype_i t i)
  | EIntBin op i r => EIntBin op (retype_i t i) (retype_f t r)
  end.
Fixpoint retype_b (t : rep) (b : bexpr) : bexpr :=
  match b with
  | BCmp op l r => BCmp op (retype_f t l) (retype_f t r)
  | BCmpInt op l i => BCmpInt op (retype_f t l) (retype_i t i)
  | BIntCmp op i r => BIntCmp op (retype_i t i) (retype_f t r)
  | BNot b => BNot (retype_b t b)
  | BAnd a b => BAnd (retype_b t a) (retype_b t b)
  | BOr a b => BOr (retype_b t a) (retype_b t b)
  end.
Fixpoint retype_s (t : rep) (c : stmt) : stmt :=
  match c with
  | SSkip => SSkip
  | SAssign x e => SAssign x (retype_f t e)
  | SOpAssign op x e => SOpAssign op x (retype_f t e)
  | SOpAssignInt op x i => SOpAssignInt op x (retype_i t i)
  | SSeq a b => SSeq (retype_s t a) (retype_s t b)
  | SIf b x y => SIf (retype_b t b) (retype_s t x) (retype_s t y)
  | SWhile b x => SWhile (retype_b t b) (retype_s t x)
  end.

(** Constants are in lowest terms. *)
Fixpoint lowest_f (e : fexpr) : Prop :=
  match e with
  | EVar _ | EOfInt _ => True
  | ELit _ r => canonical r
  | EPos e | ENeg e | EAbs e | EReduce e => lowest_f e
  | EBin _ l r => lowest_f l /\ lowest_f r
  | EBinInt _ l _ => lowest_f l
  | EIntBin _ _ r => lowest_f r
  end.
Fixpoint lowest_b (b : bexpr) : Prop :=
  match b with
  | BCmp _ l r => lowest_f l /\ lowest_f r
  | BCmpInt _ l _ => lowest_f l
  | BIntCmp _ _ r => lowest_f r
  | BNot b => lowest_b b
  | BAnd a b | BOr a b => lowest_b a /\ lowest_b b
  end.
Fixpoint lowest_s (c : stmt) : Prop :=
  match c with
  | SSkip | SOpAssignInt _ _ _ => True
  | SAssign _ e | SOpAssign _ _ e => lowest_f e
  | SSeq a b => lowest_s a /\ lowest_s b
  | SIf b x y => lowest_b b /\ lowest_s x /\ lowest_s y
  | SWhile b x => lowest_b b /\ lowest_s x
  end.

(** The reasons of undefined behaviour that no width removes: the remainder by zero,
    sum, difference or remainder with an undefined fraction on either side, the
    remainder of an undefined fraction and an integer, and the integer part of an
    undefined fraction. *)
Definition arith_possible (op : arith_op) (a b : option Q) : Prop :=
  match a, b with
  | Some x, Some y => op = Modulus -> ~ (y == 0)%Q
  | _, _ => op = Multiplies \/ op = Divides
  end.
Definition arith_int_possible (op : arith_op) (a : option Q) (z : Z) : Prop :=
  op = Modulus -> a <> None /\ z <> 0.
Definition int_arith_possible (op : arith_op) (b : option Q) : Prop :=
  op = Modulus -> exists y, b = Some y /\ ~ (y == 0)%Q.

(** Every operation of an expression. *)
Fixpoint fpossible (q : qstore) (e : fexpr) : Prop :=
  match e with
  | EVar _ | ELit _ _ => True
  | EOfInt i => imeaning q i <> None
  | EPos e | ENeg e | EAbs e | EReduce e => fpossible q e
  | EBin op l r => fpossible q l /\ fpossible q r /\ arith_possible op (fmeaning q l) (fmeaning q r)
  | EBinInt op l i => fpossible q l /\ exists z, imeaning q i = Some z /\ arith_int_possible op (fmeaning q l) z
  | EIntBin op i r => fpossible q r /\ imeaning q i <> None /\ int_arith_possible op (fmeaning q r)
  end.
Fixpoint bpossible (q : qstore) (b : bexpr) : Prop :=
  match b with
  | BCmp _ l r => fpossible q l /\ fpossible q r
  | BCmpInt _ l i => fpossible q l /\ imeaning q i <> None
  | BIntCmp _ i r => fpossible q r /\ imeaning q i <> None
  | BNot b => bpossible q b
  | BAnd x y => bpossible q x /\ (bmeaning q x = true -> bpossible q y)
  | BOr x y => bpossible q x /\ (bmeaning q x = false -> bpossible q y)
  end.
Fixpoint run_possible (fuel : nat) (q : qstore) (c : stmt) : Prop :=
  match fuel with
  | O => False
  | S fuel =>
      match c with
      | SSkip => True
      | SAssign x e => fpossible q e
      | SOpAssign op x e => fpossible q e /\ arith_possible op (q x) (fmeaning q e)
      | SOpAssignInt op x i => exists z, imeaning q i = Some z /\ arith_int_possible op (q x) z
      | SSeq a b => run_possible fuel q a /\ exists q', run fuel q a = Some q' /\ run_possible fuel q' b
      | SIf b x y => bpossible q b /\ run_possible fuel q (if bmeaning q b then x else y)
      | SWhile b x => bpossible q b /\
          (bmeaning q b = true ->
           run_possible fuel q x /\ exists q', run fuel q x = Some q' /\ run_possible fuel q' (SWhile b x))
      end
  end.

(** From some width on. *)
Definition eventually (P : rep -> Prop) : Prop :=
  exists w, forall t, signed_rep t -> w <= rbits t -> P t.
