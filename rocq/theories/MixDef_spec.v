(** Specification for C91: when an expression over mixed numbers is defined. *)

From Coq Require Import ZArith QArith.
From Verif Require Import Machine Raw Ops Spec Mixed Mixed_spec Defined_spec.
Open Scope Z_scope.

(** The fractional part of a rational, with its sign. *)
Definition frac (q : Q) : Q := (q - inject_Z (Qtrunc q))%Q.
Definition fits (M z : Z) : Prop := - M - 1 <= z <= M.

(** The whole parts add, the fractional parts add, and the carry still fits. *)
Definition sum_fits (M : Z) (a b : Q) : Prop :=
  fits M (Qtrunc a + Qtrunc b) /\ enough M Plus (frac a) (frac b) /\
  fits M (Qtrunc a + Qtrunc b + Qtrunc (frac a + frac b)).

(** A defined fraction without a part equal to the least integer. *)
Definition usable (M : Z) (f : raw) : Prop := value f <> None /\ raw_bounded M f.

(** All types of the expression are [t]. *)
Fixpoint typed (t : rep) (e : mexpr) : Prop :=
  match e with
  | MMake tw tf w f => tw = t /\ tf = t /\ in_rep t w = true /\ wf_raw t f
  | MOfFraction u f => u = t /\ wf_raw t f
  | MPos e | MNeg e => typed t e
  | MPlus l r => typed t l /\ typed t r
  | MPlusFraction e u f | MFractionPlus u f e => typed t e /\ u = t /\ wf_raw t f
  | MPlusWhole e u z | MWholePlus u z e => typed t e /\ u = t /\ in_rep t z = true
  end.

(** [M] is the greatest integer of the type. *)
Fixpoint mdefined (M : Z) (e : mexpr) : Prop :=
  match e with
  | MMake _ _ w f => usable M f /\ forall q, value f = Some q -> fits M (w + Qtrunc q)
  | MOfFraction _ f => usable M f
  | MPos e => mdefined M e
  | MNeg e => mdefined M e /\ forall a, mdenotes e = Some a -> Qtrunc a <> - M - 1
  | MPlus l r => mdefined M l /\ mdefined M r /\
      forall a b, mdenotes l = Some a -> mdenotes r = Some b -> sum_fits M a b
  | MPlusFraction e _ f | MFractionPlus _ f e => mdefined M e /\ usable M f /\
      forall a b, mdenotes e = Some a -> value f = Some b -> sum_fits M a b
  | MPlusWhole e _ z | MWholePlus _ z e => mdefined M e /\
      forall a, mdenotes e = Some a -> fits M (Qtrunc a + z)
  end.
