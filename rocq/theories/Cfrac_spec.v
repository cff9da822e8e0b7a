(** Specification for C122: the continued fraction of a rational number. *)

From Coq Require Import ZArith QArith List.
From Verif Require Import Machine Raw Spec Fmath_spec.
Import ListNotations.

(** [l] is the continued fraction of [q] with quotients rounded towards zero: an integer
    is its own; otherwise the first quotient is the integer part, and the others are
    those of the reciprocal of the rest. *)
Inductive is_cf : Q -> list Z -> Prop :=
| CfLast : forall q a, (q == inject_Z a)%Q -> is_cf q [a]
| CfMore : forall q a q' l, is_trunc a q -> ~ (q == inject_Z a)%Q -> (q' * (q - inject_Z a) == 1)%Q ->
    is_cf q' l -> is_cf q (a :: l).

(** a1 + 1/(a2 + 1/(a3 + ...)). *)
Fixpoint cf_value (l : list Z) : Q :=
  match l with
  | [] => 0
  | [a] => inject_Z a
  | a :: l => inject_Z a + / cf_value l
  end%Q.
