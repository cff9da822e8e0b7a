(** Specification for C117. *)

From Verif Require Import Machine Ops Overload.

(** The representations of two fractions of one policy have a common type. *)
Definition rep_common (w : world) (t u : cty) : Prop :=
  match t, u with Frac a o, Frac b o' => o = o' -> common w a b <> None | _, _ => True end.

(** The type of a call: a fraction for arithmetic, bool for comparisons. *)
Definition call_type (op : operator) (a o c : cty) : cty :=
  match op with OArith _ => Frac c o | OAssign _ => Frac a o | OCompare _ => Bool end.
Definition is_assignment (op : operator) : bool := match op with OAssign _ => true | _ => false end.
