(** Specification for C89. *)

From Coq Require Import ZArith.
From Verif Require Import Machine Raw Ops.
Open Scope Z_scope.

(** No part is the least value of a signed representation. *)
Definition no_minimum (t : rep) (v : raw) : Prop := num v <> rmin t /\ den v <> rmin t.

(** The policy is [safe] or [fast] itself. *)
Definition plain (o : ops) : bool :=
  match o with Safe | Fast => true | _ => false end.
