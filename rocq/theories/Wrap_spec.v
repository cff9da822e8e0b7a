(** Specification for C101: what operators on fractions of unsigned integers compute,
    also when their intermediate results wrap around. *)

From Coq Require Import ZArith QArith Bool.
From Verif Require Import Machine Raw Ops Spec Defined_spec.
Open Scope Z_scope.

(** Reduced modulo 2^bits. *)
Definition wrapped (t : rep) (z : Z) : Z := z mod 2 ^ rbits t.

(** The denominator the operands are brought to: the least common one under policies built
    on safe, the product under those built on fast. *)
Definition shared_den (least : bool) (a b : Q) : Z :=
  if least then least_den a b else low_den a * low_den b.

(** The numerator and the denominator computed from the operands a and b in lowest terms. *)
Definition wrapped_result (t : rep) (least : bool) (op : arith_op) (a b : Q) : raw :=
  let D := shared_den least a b in
  match op with
  | Plus => mkRaw (wrapped t (over a D + over b D)) (wrapped t D)
  | Minus => mkRaw (wrapped t (over a D - over b D)) (wrapped t D)
  | Multiplies => mkRaw (wrapped t (low_num a * low_num b)) (wrapped t (low_den a * low_den b))
  | Divides => mkRaw (wrapped t (low_num a * low_den b)) (wrapped t (low_den a * low_num b))
  | Modulus => mkRaw (wrapped t (over a D) mod wrapped t (over b D)) (wrapped t D)
  end.

(** The least common denominator has to fit, and no remainder by zero is taken. *)
Definition wrapped_defined (t : rep) (least : bool) (op : arith_op) (a b : Q) : Prop :=
  let D := shared_den least a b in
  match op with
  | Plus | Minus => least = true -> D <= rmax t
  | Modulus => (least = true -> D <= rmax t) /\ wrapped t (over b D) <> 0
  | Multiplies | Divides => True
  end.

(** Comparison of integers. *)
Definition int_cmp (op : cmp_op) (x y : Z) : bool :=
  match op with
  | Eq => x =? y | Ne => negb (x =? y) | Lt => x <? y | Le => x <=? y | Gt => y <? x | Ge => y <=? x
  end.
