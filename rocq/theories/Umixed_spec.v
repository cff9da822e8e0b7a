(** Specification for C112: expressions over mixed numbers of unsigned types. *)

From Coq Require Import ZArith QArith.
From Verif Require Import Machine Raw Mixed.
Open Scope Z_scope.

(** The same expression over the type [s]. *)
Fixpoint retyped (s : rep) (e : mexpr) : mexpr :=
  match e with
  | MMake _ _ w f => MMake s s w f
  | MOfFraction _ f => MOfFraction s f
  | MPos e => MPos (retyped s e)
  | MNeg e => MNeg (retyped s e)
  | MPlus l r => MPlus (retyped s l) (retyped s r)
  | MPlusFraction e _ f => MPlusFraction (retyped s e) s f
  | MFractionPlus _ f e => MFractionPlus s f (retyped s e)
  | MPlusWhole e _ z => MPlusWhole (retyped s e) s z
  | MWholePlus _ z e => MWholePlus s z (retyped s e)
  end.

(** Nothing is negated. *)
Fixpoint no_negation (e : mexpr) : Prop :=
  match e with
  | MMake _ _ _ _ | MOfFraction _ _ => True
  | MPos e => no_negation e
  | MNeg _ => False
  | MPlus l r => no_negation l /\ no_negation r
  | MPlusFraction e _ _ | MFractionPlus _ _ e | MPlusWhole e _ _ | MWholePlus _ _ e => no_negation e
  end.
