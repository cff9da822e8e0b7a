(** Specification of fraction literals. *)

From Coq Require Import ZArith QArith List.
From Verif Require Import Machine Raw Ops Spec.
Import ListNotations.

(** The rational a/b, undefined when b is zero. *)
Definition quotient (a b : Z) : option Q :=
  if Z.eqb b 0 then None else Some (inject_Z a / inject_Z b)%Q.

(** The product of quotients, undefined when one of them is. *)
Fixpoint quotient_product (l : list (Z * Z)) : option Q :=
  match l with
  | [] => Some 1%Q
  | (a, b) :: l =>
      match quotient a b, quotient_product l with
      | Some x, Some y => Some (x * y)%Q
      | _, _ => None
      end
  end.
