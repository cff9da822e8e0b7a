(** Specification for C118: types and values of expressions with fraction literals. *)

From Coq Require Import ZArith QArith List Bool.
From Verif Require Import Machine Raw Ops Spec Overload Litexpr.
Import ListNotations.
Open Scope Z_scope.

(** Integers, literals and fractions. *)
Inductive kind : Type :=
| KInt (t : rep)
| KLit (signed : bool)
| KFrac (t : rep) (o : nat).

(** What a reader of the documentation expects: an integer over a literal is a fraction of
    the type of the integer and of the default policy (number 0); a fraction over a literal
    has the type of the fraction, which must be of the default policy; operators on
    fractions and integers give fractions of the common type; everything else is an
    error. *)
Definition unary_kind (minus : bool) (k : kind) : option kind :=
  match k with
  | KInt _ => None
  | KLit s => Some (KLit (minus || s))
  | KFrac t o => Some (KFrac t o)
  end.
Definition binary_kind (op : arith_op) (k l : kind) : option kind :=
  match k, l with
  | KFrac t o, KFrac u o' => if Nat.eqb o o' then Some (KFrac (common_rep t u) o) else None
  | KFrac t o, KInt u => Some (KFrac (common_rep t u) o)
  | KInt t, KFrac u o => Some (KFrac (common_rep t u) o)
  | KInt t, KLit _ => match op with Divides => Some (KFrac t 0) | _ => None end
  | KFrac t o, KLit _ => match op, o with Divides, O => Some (KFrac t 0) | _, _ => None end
  | _, _ => None
  end.
Fixpoint kind_of (e : lexp) : option kind :=
  match e with
  | LInt t _ => Some (KInt t)
  | LFr _ => Some (KLit false)
  | LFrac t o _ => Some (KFrac t o)
  | LUnary m e => match kind_of e with Some k => unary_kind m k | None => None end
  | LBinary op l r =>
      match kind_of l, kind_of r with Some k, Some k' => binary_kind op k k' | _, _ => None end
  end.

(** The C++ type of a kind. *)
Definition type_of_kind (k : kind) : cty :=
  match k with
  | KInt t => Num t
  | KLit s => Den (Flag s) (Other 0)
  | KFrac t o => Frac (Num t) (Other o)
  end.

(** The kind of a value, and whether its parts are values of their types. *)
Definition kind_of_value (v : lval) : kind :=
  match v with VInt t _ => KInt t | VLit s _ => KLit s | VFrac t o _ => KFrac t o end.
Definition proper_value (v : lval) : Prop :=
  match v with
  | VInt t z => wf_rep t /\ in_rep t z = true
  | VLit _ _ => True
  | VFrac t _ v => wf_rep t /\ wf_raw t v
  end.

(** Every operand is a value of its type. *)
Fixpoint proper (e : lexp) : Prop :=
  match e with
  | LInt t z => wf_rep t /\ in_rep t z = true
  | LFr n => 0 <= n < 2 ^ 64
  | LFrac t _ v => wf_rep t /\ wf_raw t v
  | LUnary _ e => proper e
  | LBinary _ l r => proper l /\ proper r
  end.

(** The rational that an expression spells; [None] if it divides by zero, takes a
    remainder by zero, or has an undefined operand. *)
Fixpoint spelled (e : lexp) : option Q :=
  match e with
  | LInt _ z => Some (inject_Z z)
  | LFr n => Some (inject_Z n)
  | LFrac _ _ v => value v
  | LUnary m e => match spelled e with Some q => Some (if m then - q else q)%Q | None => None end
  | LBinary op l r => exact_opt op (spelled l) (spelled r)
  end.

(** The number of a literal with its signs. *)
Fixpoint lit_number (e : lexp) : Z :=
  match e with
  | LFr n => n
  | LUnary true e => - lit_number e
  | LUnary false e => lit_number e
  | _ => 0
  end.

(** Literals fit into the types they are used with, and the operators work in signed
    types. *)
Definition is_literal (e : lexp) : bool := match kind_of e with Some (KLit _) => true | _ => false end.
Definition works_signed (e : lexp) : Prop :=
  forall t o, kind_of e = Some (KFrac t o) -> rsigned t = true.
Fixpoint sized (e : lexp) : Prop :=
  match e with
  | LInt _ _ | LFr _ | LFrac _ _ _ => True
  | LUnary m e =>
      sized e /\ (m = true -> if is_literal e then - 2 ^ 63 < lit_number e < 2 ^ 63 else works_signed e)
  | LBinary op l r =>
      sized l /\ sized r /\ works_signed (LBinary op l r) /\
      (is_literal r = true -> forall t o, kind_of (LBinary op l r) = Some (KFrac t o) -> in_rep t (lit_number r) = true)
  end.

(** a1 / b1_fr * a2 / b2_fr * ... , each integer with its type. *)
Definition quotient_of (x : rep * Z * Z) : lexp :=
  LBinary Divides (LInt (fst (fst x)) (snd (fst x))) (LFr (snd x)).
Definition chain (x : rep * Z * Z) (l : list (rep * Z * Z)) : lexp :=
  fold_left (fun e y => LBinary Divides (LBinary Multiplies e (LInt (fst (fst y)) (snd (fst y)))) (LFr (snd y)))
    l (quotient_of x).
Definition chain_rep (x : rep * Z * Z) (l : list (rep * Z * Z)) : rep :=
  fold_left (fun t y => common_rep t (fst (fst y))) l (fst (fst x)).
