(** Property theorems: exactly when the operators of the default policy are defined.

    Each is closed by the lemma of the same name in Defined_claims.v. *)

From Coq Require Import ZArith QArith List Bool Lia.
From Verif Require Import Machine Raw Ops Spec Fraction Mixed_spec Defined_spec.
From Verif Require Import Defined_proofs.
Import ListNotations.
Open Scope Z_scope.
From Verif Require Import Defined_claims.

(** C81: two pairs of operands that stand for the same numbers - however they are
    written - are treated alike by every arithmetic operator of the default policy:
    both calls are defined and return the same representation, or neither is defined.
    Undefined fractions (denominator zero) are included. *)
Theorem C81_arith_by_value : forall t op l r l' r', signed_rep t ->
  raw_bounded (rmax t) l -> raw_bounded (rmax t) r -> raw_bounded (rmax t) l' -> raw_bounded (rmax t) r' ->
  same_value (value l) (value l') -> same_value (value r) (value r') ->
  agree (p_arith (denote defaults) t op (RR l r)) (p_arith (denote defaults) t op (RR l' r')).
Proof. exact c81_arith_by_value. Qed.
Print Assumptions C81_arith_by_value.

Example c81_arith_by_value_case :
  raw_bounded (rmax int32) (mkRaw 1000000 (-3000000)) /\ same_value (value (mkRaw 1000000 (-3000000))) (value (mkRaw (-1) 3)) /\
  same_value (value (mkRaw 2000000000 2000000000)) (value (mkRaw 1 1)) /\
  p_arith (denote defaults) int32 Plus (RR (mkRaw 1000000 (-3000000)) (mkRaw 2000000000 2000000000)) = Ok (mkRaw 2 3) /\
  p_arith (denote defaults) int32 Plus (RR (mkRaw (-1) 3) (mkRaw 1 1)) = Ok (mkRaw 2 3).
Proof. vm_compute. repeat split; intros; discriminate. Qed.

(** C81: the bound on the operands cannot be dropped: with the least integer as
    numerator the reduction of the operand already overflows, although the same number
    can be written in a way that works. *)
Theorem C81_least_integer_refuted : exists l l' r, 
  wf_raw int32 l /\ wf_raw int32 l' /\ wf_raw int32 r /\ same_value (value l) (value l') /\
  ~ agree (p_arith (denote defaults) int32 Plus (RR l r)) (p_arith (denote defaults) int32 Plus (RR l' r)).
Proof. exact c81_least_integer_refuted. Qed.
Print Assumptions C81_least_integer_refuted.

(** C81: the same for the six comparisons. *)
Theorem C81_cmp_by_value : forall t op l r l' r', signed_rep t ->
  raw_bounded (rmax t) l -> raw_bounded (rmax t) r -> raw_bounded (rmax t) l' -> raw_bounded (rmax t) r' ->
  same_value (value l) (value l') -> same_value (value r) (value r') ->
  agree (p_cmp (denote defaults) t op (RR l r)) (p_cmp (denote defaults) t op (RR l' r')).
Proof. exact c81_cmp_by_value. Qed.
Print Assumptions C81_cmp_by_value.

Example c81_cmp_by_value_case :
  p_cmp (denote defaults) int32 Lt (RR (mkRaw 1000000 (-3000000)) (mkRaw 2000000000 2000000000)) = Ok true /\
  p_cmp (denote defaults) int32 Lt (RR (mkRaw (-1) 3) (mkRaw 1 1)) = Ok true.
Proof. vm_compute. repeat split. Qed.

(** C82: an arithmetic operation of the default policy on two defined fractions is
    defined exactly when a simple condition on the two numbers in lowest terms holds:
    for [+], [-] and [%], that both can be written over their least common denominator
    and that the result over it fits; for [*] and [/], that the products of the lowest
    terms fit. *)
Theorem C82_arith_defined_iff : forall t op l r a b, signed_rep t ->
  raw_bounded (rmax t) l -> raw_bounded (rmax t) r -> value l = Some a -> value r = Some b ->
  (exists x, p_arith (denote defaults) t op (RR l r) = Ok x) <-> enough (rmax t) op a b.
Proof. exact c82_arith_defined_iff. Qed.
Print Assumptions C82_arith_defined_iff.

(** The least integer is allowed as an intermediate numerator. *)
Example c82_arith_defined_iff_case :
  raw_bounded (rmax int32) (mkRaw (-1073741824) 3) /\ raw_bounded (rmax int32) (mkRaw 1 6) /\
  enough (rmax int32) Plus (-1073741824 # 3) (1 # 6) /\
  over (-1073741824 # 3) (least_den (-1073741824 # 3) (1 # 6)) = - rmax int32 - 1 /\
  p_arith (denote defaults) int32 Plus (RR (mkRaw (-1073741824) 3) (mkRaw 1 6)) = Ok (mkRaw (-2147483647) 6) /\
  ~ enough (rmax int32) Plus (1073741824 # 3) (1 # 6) /\
  p_arith (denote defaults) int32 Plus (RR (mkRaw 1073741824 3) (mkRaw 1 6)) = UB Overflow.
Proof.
  repeat split; try (vm_compute; (reflexivity || (intros; discriminate))).
  intros [[_ [[_ A] _]] _]. now vm_compute in A.
Qed.

(** Multiplication does not cancel across the operands: the result would be 1. *)
Example c82_multiply_case :
  ~ enough (rmax int32) Multiplies (65536 # 65537) (65537 # 65536) /\
  p_arith (denote defaults) int32 Multiplies (RR (mkRaw 65536 65537) (mkRaw 65537 65536)) = UB Overflow /\
  enough (rmax int32) Multiplies (46340 # 46341) (46341 # 46340) /\
  p_arith (denote defaults) int32 Multiplies (RR (mkRaw 46340 46341) (mkRaw 46341 46340)) = Ok (mkRaw 1 1).
Proof.
  split; [|split; [|split]]; try (vm_compute; (reflexivity || (split; intros; discriminate))).
  intros [A _]. now vm_compute in A.
Qed.

(** C82: an operation that is defined in a representation is defined - with the same
    result - in every wider one. *)
Theorem C82_wider_still_defined : forall t u op l r x, signed_rep t -> signed_rep u -> rmax t <= rmax u ->
  raw_bounded (rmax t) l -> raw_bounded (rmax t) r ->
  p_arith (denote defaults) t op (RR l r) = Ok x -> p_arith (denote defaults) u op (RR l r) = Ok x.
Proof. exact c82_wider_still_defined. Qed.
Print Assumptions C82_wider_still_defined.

Example c82_wider_still_defined_case :
  rmax int32 <= rmax int64 /\
  p_arith (denote defaults) int32 Modulus (RR (mkRaw (-1073741824) 3) (mkRaw 5 6)) = Ok (mkRaw (-1) 2) /\
  p_arith (denote defaults) int64 Modulus (RR (mkRaw (-1073741824) 3) (mkRaw 5 6)) = Ok (mkRaw (-1) 2).
Proof. vm_compute. repeat split. intros; discriminate. Qed.

(** C82: and so is a comparison. *)
Theorem C82_wider_cmp_still_defined : forall t u op l r v, signed_rep t -> signed_rep u -> rmax t <= rmax u ->
  raw_bounded (rmax t) l -> raw_bounded (rmax t) r ->
  p_cmp (denote defaults) t op (RR l r) = Ok v -> p_cmp (denote defaults) u op (RR l r) = Ok v.
Proof. exact c82_wider_cmp_still_defined. Qed.
Print Assumptions C82_wider_cmp_still_defined.

Example c82_wider_cmp_still_defined_case :
  p_cmp (denote defaults) int32 Ge (RR (mkRaw (-1073741824) 3) (mkRaw 5 6)) = Ok false /\
  p_cmp (denote defaults) int64 Ge (RR (mkRaw (-1073741824) 3) (mkRaw 5 6)) = Ok false.
Proof. vm_compute. repeat split. Qed.

(** C82: a fraction and an integer: the same condition, the integer standing for
    itself.  The denominator of the fraction is positive. *)
Theorem C82_arith_int_defined_iff : forall t op l z a, signed_rep t ->
  raw_bounded (rmax t) l -> 0 < den l -> in_rep t z = true -> value l = Some a ->
  (exists x, p_arith (denote defaults) t op (RI l z) = Ok x) <-> enough (rmax t) op a (inject_Z z).
Proof. exact c82_arith_int_defined_iff. Qed.
Print Assumptions C82_arith_int_defined_iff.

Example c82_arith_int_defined_iff_case :
  enough (rmax int32) Plus (1 # 2) (inject_Z (-1073741824)) /\
  p_arith (denote defaults) int32 Plus (RI (mkRaw 1 2) (-1073741824)) = Ok (mkRaw (-2147483647) 2) /\
  p_arith (denote defaults) int32 Minus (RI (mkRaw 1 2) 1073741824) = UB Overflow.
Proof. vm_compute. repeat split; intros; discriminate. Qed.

(** C82: an integer and a fraction. *)
Theorem C82_int_arith_defined_iff : forall t op z r b, signed_rep t ->
  raw_bounded (rmax t) r -> 0 < den r -> in_rep t z = true -> value r = Some b ->
  (exists x, p_arith (denote defaults) t op (IR z r) = Ok x) <-> enough (rmax t) op (inject_Z z) b.
Proof. exact c82_int_arith_defined_iff. Qed.
Print Assumptions C82_int_arith_defined_iff.

Example c82_int_arith_defined_iff_case :
  enough (rmax int32) Divides (inject_Z 65536) (32767 # 32767) /\
  p_arith (denote defaults) int32 Divides (IR 65536 (mkRaw 32767 32767)) = Ok (mkRaw 65536 1) /\
  p_arith (denote defaults) int32 Divides (IR 65536 (mkRaw 1 32768)) = UB Overflow.
Proof. vm_compute. repeat split. right. split; intros; discriminate. Qed.

(** C82: a comparison of the default policy on two defined fractions is defined
    exactly when both can be written over their least common denominator. *)
Theorem C82_cmp_defined_iff : forall t op l r a b, signed_rep t ->
  raw_bounded (rmax t) l -> raw_bounded (rmax t) r -> value l = Some a -> value r = Some b ->
  (exists v, p_cmp (denote defaults) t op (RR l r) = Ok v) <-> common_fits (rmax t) a b.
Proof. exact c82_cmp_defined_iff. Qed.
Print Assumptions C82_cmp_defined_iff.

(** Even the equality of two different small fractions needs the common denominator. *)
Example c82_cmp_defined_iff_case :
  common_fits (rmax int32) (1 # 46340) (1 # 46341) /\
  p_cmp (denote defaults) int32 Eq (RR (mkRaw 1 46340) (mkRaw 1 46341)) = Ok false /\
  ~ common_fits (rmax int32) (1 # 65536) (1 # 65537) /\
  p_cmp (denote defaults) int32 Eq (RR (mkRaw 1 65536) (mkRaw 1 65537)) = UB LibPrecond.
Proof.
  split; [vm_compute; repeat split; intros; discriminate|]. split; [vm_compute; reflexivity|].
  split; [|vm_compute; reflexivity]. intros [A _]. now vm_compute in A.
Qed.
