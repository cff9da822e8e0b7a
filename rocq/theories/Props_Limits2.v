(** Property theorems: the static members of numeric_limits.

    Each is closed by the lemma of the same name in Limits2_claims.v. *)

From Coq Require Import ZArith QArith Lia Lqa Psatz Bool.
From Verif Require Import Machine Raw Ops Spec Fraction Limits Limits2 Mixed_spec.
From Verif Require Import Machine_proofs Value_proofs Ops_proofs Algebra_proofs Fraction_proofs Literals_proofs Limits2_proofs.
Open Scope Z_scope.
From Verif Require Import Limits2_claims.

(** C76: is_signed says whether negative values exist. *)
Theorem C76_is_signed : forall t, wf_rep t ->
  (nl_is_signed t = true <-> exists v q, wf_raw t v /\ value v = Some q /\ (q < 0)%Q).
Proof. exact c76_is_signed. Qed.
Print Assumptions C76_is_signed.

(** C76: digits is the greatest n such that all the integers of n bits, of either
    sign if is_signed, are fractions of the type. *)
Theorem C76_digits : forall t n, wf_rep t -> 0 <= n ->
  (n <= nl_digits t <->
   forall z, (if nl_is_signed t then Z.abs z < nl_radix ^ n else 0 <= z < nl_radix ^ n) ->
     exists v, wf_raw t v /\ same_value (value v) (Some (inject_Z z))).
Proof. exact c76_digits. Qed.
Print Assumptions C76_digits.

(** C76: all the integers of digits10 decimal digits are fractions of the type. *)
Theorem C76_digits10 : forall t z, wf_rep t ->
  (if nl_is_signed t then Z.abs z < 10 ^ nl_digits10 t else 0 <= z < 10 ^ nl_digits10 t) ->
  exists v, wf_raw t v /\ same_value (value v) (Some (inject_Z z)).
Proof. exact c76_digits10. Qed.
Print Assumptions C76_digits10.

(** C76: is_bounded: finitely many values, all between those of the integers. *)
Theorem C76_is_bounded : forall t v q, signed_rep t -> wf_raw t v -> value v = Some q ->
  nl_is_bounded t = true /\ (- inject_Z (2 ^ nl_digits t) <= q <= inject_Z (2 ^ nl_digits t))%Q.
Proof. exact c76_is_bounded. Qed.
Print Assumptions C76_is_bounded.

(** C76: has_quiet_NaN: quiet_NaN() is undefined, different from everything under
    every policy, itself included, and every operation that returns keeps it. *)
Theorem C76_quiet_NaN : forall o t v, signed_rep t -> wf_raw t v ->
  nl_has_quiet_NaN = true /\ value nl_quiet_NaN = None /\
  (forall b, p_cmp (denote o) t Eq (RR nl_quiet_NaN v) = Ok b -> b = false) /\
  (forall b, p_cmp (denote o) t Ne (RR nl_quiet_NaN v) = Ok b -> b = true) /\
  (forall op r, p_arith (denote o) t op (RR nl_quiet_NaN v) = Ok r -> op <> Divides \/ value v <> None -> value r = None).
Proof. exact c76_quiet_NaN. Qed.
Print Assumptions C76_quiet_NaN.

(** C76: is_exact: no operation on signed fractions rounds. *)
Theorem C76_is_exact : forall o t op a r x y z, signed_rep t -> wf_args t a ->
  left_value a = Some x -> right_value a = Some y -> exact op x y = Some z ->
  p_arith (denote o) t op a = Ok r -> nl_is_exact = true /\ same_value (value r) (Some z).
Proof. exact c76_is_exact. Qed.
Print Assumptions C76_is_exact.

(** C76: is_modulo is true of fractions of unsigned integers, but their arithmetic
    is not modular: 1/2 + 4294967295 is 4294967295/2, which differs from the exact
    sum by no multiple of max() - min() + 1. *)
Theorem C76_is_modulo_refuted : exists l r v x,
  nl_is_modulo uint32 = true /\ wf_raw uint32 l /\ wf_raw uint32 r /\
  p_arith (denote defaults) uint32 Plus (RR l r) = Ok v /\ value v = Some x /\
  forall y k, exact_opt Plus (value l) (value r) = Some y -> ~ (y == x + inject_Z k * inject_Z (rmax uint32 - rmin uint32 + 1))%Q.
Proof. exact c76_is_modulo_refuted. Qed.
Print Assumptions C76_is_modulo_refuted.

(** C76: max_digits10 is that of an integer type, 0; so many decimal places do not tell
    fractions apart. *)
Theorem C76_max_digits10_refuted : forall t, wf_rep t -> nl_max_digits10 = 0 /\
  exists v w a b, wf_raw t v /\ wf_raw t w /\ value v = Some a /\ value w = Some b /\ (0 < a < b)%Q /\
    (b * inject_Z (10 ^ nl_max_digits10) < 1)%Q.
Proof. exact c76_max_digits10_refuted. Qed.
Print Assumptions C76_max_digits10_refuted.

(** C76: traps is false, but % by zero divides an integer by zero, under every
    policy. *)
Theorem C76_traps_refuted : forall o, nl_traps = false /\
  p_arith (denote o) int32 Modulus (RR (mkRaw 1 1) (mkRaw 0 1)) = UB DivByZero.
Proof. exact c76_traps_refuted. Qed.
Print Assumptions C76_traps_refuted.

Example C76_nonvacuous :
  nl_digits int32 = 31 /\ nl_digits10 int32 = 9 /\ nl_digits uint64 = 64 /\ nl_digits10 uint64 = 19 /\
  nl_digits10 int64 = 18 /\ wf_rep uint64 /\ wf_raw int32 nl_quiet_NaN /\
  p_cmp (denote defaults) int32 Ne (RR nl_quiet_NaN nl_quiet_NaN) = Ok true.
Proof. repeat split; vm_compute; congruence. Qed.
