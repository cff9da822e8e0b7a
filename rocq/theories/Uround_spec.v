(** Specification for C107: rounding fractions of unsigned integers. *)

From Coq Require Import ZArith Bool.
From Verif Require Import Machine Raw Ops Stack_spec Outcome_spec.
Open Scope Z_scope.

(** Some layer of the policy reduces. *)
Definition layered (o : ops) : bool :=
  match effect (input_modes o), effect (output_modes o) with Absent, Absent => false | _, _ => true end.
(** The divisor that the operations of the policy cancel. *)
Definition cancelled (o : ops) (v : raw) : Z := if layered o then Z.gcd (num v) (den v) else 1.

(** Rounding [v] gives [k]: the integral part, plus one if the remainder is at least half
    of the denominator.  The safe operations double an odd denominator; the fast ones
    double the remainder, which may wrap. *)
Definition rounds (o : ops) (t : rep) (v : raw) (k : Z) : Prop :=
  let d := den v / cancelled o v in
  let x := (num v mod den v) / cancelled o v in
  den v <> 0 /\
  (on_lcm o = true -> Z.even d = true \/ 2 * d <= rmax t) /\
  k = num v / den v + (if (if on_lcm o then 2 * x else (2 * x) mod 2 ^ rbits t) <? d then 0 else 1).

(** Scaling [v] by [d]: the product wraps. *)
Definition scaled (o : ops) (t : rep) (v : raw) (d : Z) : raw :=
  lowest (effect (output_modes o))
    (mkRaw ((num (lowest (effect (input_modes o)) v) * d) mod 2 ^ rbits t) (den (lowest (effect (input_modes o)) v))).
