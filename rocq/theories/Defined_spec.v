(** Specification for C81 and C82: when an operation of the default policy is
    defined, in terms of the two rational operands in lowest terms. *)

From Coq Require Import ZArith QArith Qreduction.
From Verif Require Import Machine Raw Ops.
Open Scope Z_scope.

(** Numerator and denominator in lowest terms. *)
Definition low_num (q : Q) : Z := Qnum (Qred q).
Definition low_den (q : Q) : Z := Zpos (Qden (Qred q)).

(** The least common denominator, and the numerator of [q] over it. *)
Definition least_den (a b : Q) : Z := Z.lcm (low_den a) (low_den b).
Definition over (q : Q) (L : Z) : Z := low_num q * (L / low_den q).

(** Both operands can be written over their least common denominator by integers
    from -M-1 to M. *)
Definition common_fits (M : Z) (a b : Q) : Prop :=
  let L := least_den a b in
  L <= M /\ - M - 1 <= over a L <= M /\ - M - 1 <= over b L <= M.

(** [M] is the greatest integer of the representation. *)
Definition enough (M : Z) (op : arith_op) (a b : Q) : Prop :=
  let L := least_den a b in
  match op with
  | Plus => common_fits M a b /\ Z.abs (over a L + over b L) <= M
  | Minus => common_fits M a b /\ Z.abs (over a L - over b L) <= M
  | Multiplies => Z.abs (low_num a * low_num b) <= M /\ low_den a * low_den b <= M
  | Divides => (b == 0)%Q \/ Z.abs (low_num a * low_den b) <= M /\ Z.abs (low_den a * low_num b) <= M
  | Modulus => common_fits M a b /\ ~ (b == 0)%Q /\ ~ (over a L = - M - 1 /\ over b L = -1)
  end.
