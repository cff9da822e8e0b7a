(** Specification of rounding, independent of the code. *)

From Coq Require Import ZArith QArith.
Open Scope Z_scope.

(** [k] is [q] rounded toward zero. *)
Definition is_trunc (k : Z) (q : Q) : Prop :=
  ((0 <= q)%Q -> (inject_Z k <= q < inject_Z (k + 1))%Q) /\
  ((q <= 0)%Q -> (inject_Z (k - 1) < q <= inject_Z k)%Q).

(** [k] is the greatest integer not above [q]. *)
Definition is_floor (k : Z) (q : Q) : Prop := (inject_Z k <= q < inject_Z (k + 1))%Q.

(** [k] is the least integer not below [q]. *)
Definition is_ceil (k : Z) (q : Q) : Prop := (inject_Z (k - 1) < q <= inject_Z k)%Q.

(** [k] is the integer nearest to [q], ties going up. *)
Definition is_round (k : Z) (q : Q) : Prop :=
  (inject_Z k - (1 # 2) <= q < inject_Z k + (1 # 2))%Q.

(** The open interval (-1, 0), where the code's floor and ceil are wrong. *)
Definition tiny_negative (q : Q) : Prop := (inject_Z (-1) < q < 0)%Q.

(** The open interval (-1, -1/2), where the code's round is wrong. *)
Definition below_minus_half (q : Q) : Prop := (inject_Z (-1) < q < -1 # 2)%Q.

(** [v'] is the fraction k/d. *)
Definition is_over (v' : Q) (k d : Z) : Prop := (v' == inject_Z k / inject_Z d)%Q.
