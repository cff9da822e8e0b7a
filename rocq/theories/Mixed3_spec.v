(** Specification for C84: expressions over mixed numbers whose values stay small. *)

From Coq Require Import ZArith QArith Qabs.
From Verif Require Import Machine Raw Ops Spec Mixed Mixed_spec Defined_spec.
Open Scope Z_scope.

(** Every rational computed has magnitude at most [W] and a denominator, in lowest
    terms, of at most [B]; operands that are written down have parts within the same
    bounds; the types of the fractional parts have room for 8 B^2, those of the whole
    parts for 2 W + 2. *)
Fixpoint small_mexpr (B W : Z) (e : mexpr) : Prop :=
  (exists q, mdenotes e = Some q /\ (Qabs q <= inject_Z W)%Q /\ low_den q <= B) /\
  8 * B * B <= rmax (snd (mtype e)) /\ 2 * W + 2 <= rmax (fst (mtype e)) /\
  match e with
  | MMake _ _ w f => raw_bounded B f /\ Z.abs w <= W
  | MOfFraction _ f => raw_bounded B f
  | MPos e | MNeg e => small_mexpr B W e
  | MPlus l r => small_mexpr B W l /\ small_mexpr B W r
  | MPlusFraction e t f | MFractionPlus t f e =>
      small_mexpr B W e /\ raw_bounded B f /\ 8 * B * B <= rmax t
  | MPlusWhole e _ z | MWholePlus _ z e => small_mexpr B W e /\ Z.abs z <= W
  end.
