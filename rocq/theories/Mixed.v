(** Mixed numbers.

    Models /repo/include/ieme/mixed_number.hpp.  The template parameters WRep
    and FRep are the [rep]s [tw] and [tf], Ops is a [policy].  Overload
    resolution is static and not modelled. *)

From Coq Require Import ZArith Bool List.
From Verif Require Import Machine Raw Ops Fraction Fmath.
Import ListNotations.
Open Scope Z_scope.

(** mixed_number.hpp:45-46; the accessors (mixed_number.hpp:138-150) are the
    projections. *)
Record mixed : Type := mkMixed { whole : Z; fractional : raw }.

(** mixed_number.hpp:22,45-46 *)
Definition mixed_default : mixed := mkMixed 0 f_default.

(** mixed_number.hpp:155-161: the improper fractional part is split. *)
Definition fix_improper (p : policy) (tw tf : rep) (m : mixed) : res mixed :=
  do b <- is_improper tf (fractional m);
  if b then
    do truncated_fractional <- f_trunc tf (fractional m);
    do w <- m_add tw (whole m) (cast tw truncated_fractional);
    do f <- f_assign p tf Minus (fractional m) (IntOperand tf truncated_fractional);
    Ok (mkMixed w f)
  else Ok m.

(** mixed_number.hpp:163-172: the signs are made to agree. *)
Definition fix_signs (p : policy) (tw tf : rep) (m : mixed) : res mixed :=
  if (whole m >? 0) && is_negative (fractional m) then
    do w <- m_sub tw (whole m) 1;
    do f <- f_arith p tf tf Plus (IR 1 (fractional m));
    Ok (mkMixed w f)
  else if (whole m <? 0) && is_positive (fractional m) then
    do w <- m_add tw (whole m) 1;
    do minus_one <- m_neg tf 1;
    do f <- f_arith p tf tf Plus (IR minus_one (fractional m));
    Ok (mkMixed w f)
  else Ok m.

(** mixed_number.hpp:152-173 *)
Definition mixed_fix (p : policy) (tw tf : rep) (m : mixed) : res mixed :=
  do m <- fix_improper p tw tf m; fix_signs p tw tf m.

(** mixed_number.hpp:96-103 *)
Definition mixed_make (p : policy) (tw tf : rep) (w : Z) (f : raw) : res mixed :=
  mixed_fix p tw tf (mkMixed w f).

(** mixed_number.hpp:105-112; [to] is OtherFRep. *)
Definition mixed_of_fraction (p : policy) (tw tf to : rep) (v : raw) : res mixed :=
  do t <- f_trunc to v;
  let w := cast tw t in
  do f <- f_arith p to to Minus (RI v (cast to w));
  Ok (mkMixed w (f_convert to tf f)).

(** mixed_number.hpp:114-120: the value is first converted to this policy. *)
Definition mixed_of_other_fraction (p : policy) (tw tf to : rep) (v : raw) : res mixed :=
  mixed_of_fraction p tw tf to (f_convert to to v).

(** mixed_number.hpp:122-136 *)
Definition mixed_as_fraction (p : policy) (tw tf : rep) (m : mixed) : res raw :=
  let c := common_rep tw tf in
  f_arith p c c Plus (IR (cast c (whole m)) (f_convert tf c (fractional m))).

(** mixed_number.hpp:175-180 *)
Definition mixed_posate (m : mixed) : mixed := m.

(** mixed_number.hpp:182-187 *)
Definition mixed_negate (p : policy) (tw tf : rep) (m : mixed) : res mixed :=
  do w <- m_neg tw (whole m);
  do f <- f_negate p tf (fractional m);
  mixed_make p tw tf w f.

(** mixed_number.hpp:189-209 *)
Definition mixed_plus (p : policy) (tw1 tf1 tw2 tf2 : rep) (l r : mixed) : res mixed :=
  let tw := common_rep tw1 tw2 in
  let tf := common_rep tf1 tf2 in
  do w <- m_add tw (cast tw (whole l)) (cast tw (whole r));
  do f <- f_arith p tf tf Plus
            (RR (f_convert tf1 tf (fractional l)) (f_convert tf2 tf (fractional r)));
  mixed_make p tw tf w f.

(** mixed_number.hpp:211-219 *)
Definition mixed_plus_fraction (p : policy) (tw tf1 tf2 : rep) (l : mixed) (r : raw) : res mixed :=
  do m <- mixed_of_fraction p tf2 tf2 tf2 r;
  mixed_plus p tw tf1 tf2 tf2 l m.

(** mixed_number.hpp:221-229 *)
Definition fraction_plus_mixed (p : policy) (tw tf1 tf2 : rep) (l : raw) (r : mixed) : res mixed :=
  mixed_plus_fraction p tw tf1 tf2 r l.

(** mixed_number.hpp:231-241 *)
Definition mixed_plus_whole (p : policy) (tw1 tf tw2 : rep) (l : mixed) (r : Z) : res mixed :=
  let tw := common_rep tw1 tw2 in
  do w <- m_add tw (cast tw (whole l)) (cast tw r);
  mixed_make p tw tf w (fractional l).

(** mixed_number.hpp:243-249 *)
Definition whole_plus_mixed (p : policy) (tw1 tw2 tf : rep) (l : Z) (r : mixed) : res mixed :=
  mixed_plus_whole p tw2 tf tw1 r l.

(** An expression over mixed numbers, fractions and integers (client code); every leaf
    and operand carries its own types. The constructors and operators at
    mixed_number.hpp:24-90. *)
Inductive mexpr : Type :=
| MMake (tw tf : rep) (w : Z) (f : raw)
| MOfFraction (t : rep) (f : raw)
| MPos (e : mexpr)
| MNeg (e : mexpr)
| MPlus (l r : mexpr)
| MPlusFraction (e : mexpr) (t : rep) (f : raw)
| MFractionPlus (t : rep) (f : raw) (e : mexpr)
| MPlusWhole (e : mexpr) (t : rep) (z : Z)
| MWholePlus (t : rep) (z : Z) (e : mexpr).

(** The types of the mixed number an expression has (mixed_number.hpp:49-90). *)
Fixpoint mtype (e : mexpr) : rep * rep :=
  match e with
  | MMake tw tf _ _ => (tw, tf)
  | MOfFraction t _ => (t, t)
  | MPos e | MNeg e => mtype e
  | MPlus l r =>
      (common_rep (fst (mtype l)) (fst (mtype r)), common_rep (snd (mtype l)) (snd (mtype r)))
  | MPlusFraction e t _ | MFractionPlus t _ e =>
      (common_rep (fst (mtype e)) t, common_rep (snd (mtype e)) t)
  | MPlusWhole e t _ | MWholePlus t _ e => (common_rep (fst (mtype e)) t, snd (mtype e))
  end.

(** Calls of the constructors and operators at mixed_number.hpp:24-90. *)
Fixpoint meval (p : policy) (e : mexpr) : res mixed :=
  match e with
  | MMake tw tf w f => mixed_make p tw tf w f
  | MOfFraction t f => mixed_of_fraction p t t t f
  | MPos e => do m <- meval p e; Ok (mixed_posate m)
  | MNeg e => do m <- meval p e; mixed_negate p (fst (mtype e)) (snd (mtype e)) m
  | MPlus l r =>
      do x <- meval p l;
      do y <- meval p r;
      mixed_plus p (fst (mtype l)) (snd (mtype l)) (fst (mtype r)) (snd (mtype r)) x y
  | MPlusFraction e t f =>
      do m <- meval p e; mixed_plus_fraction p (fst (mtype e)) (snd (mtype e)) t m f
  | MFractionPlus t f e =>
      do m <- meval p e; fraction_plus_mixed p (fst (mtype e)) (snd (mtype e)) t f m
  | MPlusWhole e t z =>
      do m <- meval p e; mixed_plus_whole p (fst (mtype e)) (snd (mtype e)) t m z
  | MWholePlus t z e =>
      do m <- meval p e; whole_plus_mixed p t (fst (mtype e)) (snd (mtype e)) z m
  end.
