(** Specification of properties of pairs of floating-point conversions. *)

From Coq Require Import ZArith QArith Qreduction.
From Flocq Require Import IEEE754.Binary.
From Verif Require Import Machine Raw Ops Float_spec.

(** v is an object of type [t] none of whose parts is the minimum of a signed
    representation. *)
Definition symmetric (t : rep) (v : raw) : Prop :=
  (wf_raw t v /\ Z.abs (num v) <= rmax t /\ Z.abs (den v) <= rmax t)%Z.

(** The numerator and denominator of q in lowest terms have at most [prec]
    significant bits. *)
Definition short_parts (prec : Z) (q : Q) : Prop :=
  exactly_representable prec (Qnum (Qred q)) /\ exactly_representable prec (Zpos (Qden (Qred q))).

(** The numerator and denominator of q in lowest terms are at most [b]. *)
Definition parts_at_most (b : Z) (q : Q) : Prop :=
  (Z.abs (Qnum (Qred q)) <= b /\ Zpos (Qden (Qred q)) <= b)%Z.

(** [f] turns v and w into floating-point numbers whose values are related by R. *)
Definition converted {prec emax : Z} (f : raw -> res (binary_float prec emax)) (v w : raw)
  (R : Q -> Q -> Prop) : Prop :=
  exists x y p q, f v = Ok x /\ f w = Ok y /\ float_value x = Some p /\ float_value y = Some q /\ R p q.
