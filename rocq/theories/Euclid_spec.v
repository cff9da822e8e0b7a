(** Specification for C96: Euclid's algorithm on fractions. *)

From Coq Require Import ZArith QArith Bool.
From Verif Require Import Machine Raw Ops Fraction Program Defined_spec.
Open Scope Z_scope.

(** The client program, with x, y and a temporary the variables 0, 1 and 2:
    while (y != 0) { tmp = x % y; x = y; y = tmp; } *)
Definition euclid_body : stmt :=
  SSeq (SAssign 2 (EBin Modulus (EVar 0) (EVar 1))) (SSeq (SAssign 0 (EVar 1)) (SAssign 1 (EVar 2))).
Definition euclid : stmt := SWhile (BCmpInt Ne (EVar 1) (IConst int32 0)) euclid_body.

(** [a] is an integer multiple of [g]. *)
Definition multiple (a g : Q) : Prop := exists k, (a == g * inject_Z k)%Q.

(** [g] is a greatest common divisor: both are multiples of it, and it is a multiple
    of every rational of which both are multiples. *)
Definition is_gcd (a b g : Q) : Prop :=
  multiple a g /\ multiple b g /\ forall d, multiple a d -> multiple b d -> multiple g d.

(** When the program is free of undefined behaviour; [M] is the greatest integer. *)
Definition euclid_fits (M : Z) (x y : Q) : Prop :=
  (y == 0)%Q \/
  Z.abs (low_num x) <= M /\ Z.abs (low_num y) <= M /\ common_fits M x y /\
  let L := least_den x y in
  ~ (over x L = - M - 1 /\ over y L = -1) /\ ~ (over x L = -1 /\ over y L = - M - 1).
