(** Specification of mixed numbers. *)

From Coq Require Import ZArith QArith List.
From Verif Require Import Machine Raw Ops Spec Fraction Mixed.
Import ListNotations.

(** The rational w + f. *)
Definition sum_value (w : Z) (f : option Q) : option Q :=
  match f with Some q => Some (inject_Z w + q)%Q | None => None end.

Definition mixed_value (m : mixed) : option Q := sum_value (whole m) (value (fractional m)).

(** The fractional part is defined, smaller than one in magnitude, and never of
    opposite sign to the whole part. *)
Definition normal_form (m : mixed) : Prop :=
  exists q, value (fractional m) = Some q /\ (-(1) < q < 1)%Q /\
    ((0 < whole m)%Z -> (0 <= q)%Q) /\ ((whole m < 0)%Z -> (q <= 0)%Q).

(** The members are values of their types. *)
Definition wf_mixed (tw tf : rep) (m : mixed) : Prop :=
  in_rep tw (whole m) = true /\ wf_raw tf (fractional m).

Definition opt_plus (x y : option Q) : option Q :=
  match x, y with Some a, Some b => Some (a + b)%Q | _, _ => None end.

(** The rational an expression denotes. *)
Fixpoint mdenotes (e : mexpr) : option Q :=
  match e with
  | MMake _ _ w f => sum_value w (value f)
  | MOfFraction _ f => value f
  | MPos e => mdenotes e
  | MNeg e => opp_opt (mdenotes e)
  | MPlus l r => opt_plus (mdenotes l) (mdenotes r)
  | MPlusFraction e _ f => opt_plus (mdenotes e) (value f)
  | MFractionPlus _ f e => opt_plus (value f) (mdenotes e)
  | MPlusWhole e _ z => opt_plus (mdenotes e) (Some (inject_Z z))
  | MWholePlus _ z e => opt_plus (Some (inject_Z z)) (mdenotes e)
  end.

(** A signed type of at least the width of int. *)
Definition signed_rep (t : rep) : Prop := wf_rep t /\ rsigned t = true.

(** Leaves and operands are values of their signed types; a whole type is at
    least as wide as the fractional type of the same leaf. *)
Fixpoint wf_mexpr (e : mexpr) : Prop :=
  match e with
  | MMake tw tf w f =>
      signed_rep tw /\ signed_rep tf /\ (rbits tf <= rbits tw)%Z /\ in_rep tw w = true /\ wf_raw tf f
  | MOfFraction t f => signed_rep t /\ wf_raw t f
  | MPos e | MNeg e => wf_mexpr e
  | MPlus l r => wf_mexpr l /\ wf_mexpr r
  | MPlusFraction e t f | MFractionPlus t f e => wf_mexpr e /\ signed_rep t /\ wf_raw t f
  | MPlusWhole e t z | MWholePlus t z e => wf_mexpr e /\ signed_rep t /\ in_rep t z = true
  end.
