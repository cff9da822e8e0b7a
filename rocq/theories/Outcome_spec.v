(** Specification for C104: what every operation of every policy returns, and when, in
    terms of the integers in its operands alone. *)

From Coq Require Import ZArith Bool.
From Verif Require Import Machine Raw Ops Stack_spec.
Open Scope Z_scope.

(** [w] is what a type holds after computing an operation whose exact result is [z]:
    signed overflow is undefined, unsigned arithmetic wraps. *)
Definition holds (t : rep) (z w : Z) : Prop :=
  if rsigned t then w = z /\ rmin t <= z <= rmax t else w = z mod 2 ^ rbits t.

(** Reducing by a layer, and the fractions for which that is defined. *)
Definition lowest (l : layer) (v : raw) : raw :=
  match l with
  | Absent => v
  | _ =>
      if den v =? 0 then mkRaw 0 0
      else
        let g := Z.gcd (num v) (den v) in
        let g := match l with Normalising => if den v <? 0 then - g else g | _ => g end in
        mkRaw (num v / g) (den v / g)
  end.
Definition reducible (t : rep) (l : layer) (v : raw) : Prop :=
  l = Absent \/ den v = 0 \/ Z.abs (num v) <= rmax t /\ Z.abs (den v) <= rmax t.

(** Only fractions are reduced, integers are used as they are. *)
Definition lowest_args (l : layer) (a : args) : args :=
  match a with
  | RR x y => RR (lowest l x) (lowest l y)
  | RI x z => RI (lowest l x) z
  | IR z y => IR z (lowest l y)
  end.
Definition reducible_args (t : rep) (l : layer) (a : args) : Prop :=
  match a with
  | RR x y => reducible t l x /\ reducible t l y
  | RI x _ | IR _ x => reducible t l x
  end.

(** The operands as fractions. *)
Definition left_of (a : args) : raw := match a with RR l _ | RI l _ => l | IR z _ => mkRaw z 1 end.
Definition right_of (a : args) : raw := match a with RR _ r | IR _ r => r | RI _ z => mkRaw z 1 end.
Definition two_fractions (a : args) : bool := match a with RR _ _ => true | _ => false end.

(** The numerators of both operands over the denominator they are brought to: the safe
    operations take the least common multiple for two fractions, and everything else
    the product. *)
Definition uses_lcm (least : bool) (a : args) : bool := least && two_fractions a.
Definition numerators (t : rep) (least : bool) (a : args) (x y : Z) : Prop :=
  let l := left_of a in
  let r := right_of a in
  if uses_lcm least a then
    let L := Z.lcm (den l) (den r) in
    den l <> 0 /\ den r <> 0 /\ Z.abs (den l) <= rmax t /\ Z.abs (den r) <= rmax t /\ L <= rmax t /\
    holds t (num l * (L / den l)) x /\ holds t (num r * (L / den r)) y
  else holds t (num l * den r) x /\ holds t (num r * den l) y.
Definition denominator (t : rep) (least : bool) (a : args) (d : Z) : Prop :=
  let l := left_of a in
  let r := right_of a in
  if uses_lcm least a then d = Z.lcm (den l) (den r) else holds t (den l * den r) d.

(** An arithmetic operator without layers returns [v]. *)
Definition returns (t : rep) (least : bool) (op : arith_op) (a : args) (v : raw) : Prop :=
  let l := left_of a in
  let r := right_of a in
  match op with
  | Plus => exists x y n, numerators t least a x y /\ holds t (x + y) n /\ num v = n /\ denominator t least a (den v)
  | Minus => exists x y n, numerators t least a x y /\ holds t (x - y) n /\ num v = n /\ denominator t least a (den v)
  | Multiplies => holds t (num l * num r) (num v) /\ holds t (den l * den r) (den v)
  | Divides => holds t (num l * den r) (num v) /\ holds t (den l * num r) (den v)
  | Modulus => exists x y, numerators t least a x y /\ y <> 0 /\ Z.quot x y <= rmax t /\
                 num v = Z.rem x y /\ denominator t least a (den v)
  end.

Definition int_cmp (op : cmp_op) (x y : Z) : bool :=
  match op with
  | Eq => x =? y | Ne => negb (x =? y) | Lt => x <? y | Le => x <=? y | Gt => y <? x | Ge => y <=? x
  end.

(** A comparison without layers returns [b]; only != holds of an undefined operand, but
    the cross products are computed all the same. *)
Definition decides (t : rep) (least : bool) (op : cmp_op) (a : args) (b : bool) : Prop :=
  let only_ne := match op with Ne => true | _ => false end in
  let undefined := (den (left_of a) =? 0) || (den (right_of a) =? 0) in
  if uses_lcm least a && undefined then b = only_ne
  else exists x y, numerators t least a x y /\ b = if undefined then only_ne else int_cmp op x y.

Definition on_lcm (o : ops) : bool := match bottom o with Safe => true | _ => false end.
