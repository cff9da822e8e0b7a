(** Property theorems: exactly when the operators of fast_reduced_io are defined, and how it compares with the default policy.

    Each is closed by the lemma of the same name in FastIO_claims.v. *)

From Coq Require Import ZArith QArith List Bool Lia.
From Verif Require Import Machine Raw Ops Spec Fraction Fraction_spec Mixed_spec Defined_spec FastIO_spec.
From Verif Require Import Machine_proofs Tight_proofs Defined_proofs Defined2_proofs Value_proofs FastIO_proofs.
Import ListNotations.
Open Scope Z_scope.
From Verif Require Import FastIO_claims.

(** C87: arithmetic of two fractions under fast_reduced_io is defined exactly when the
    cross products of the lowest terms, their sum (or difference) and the product of the
    denominators fit. *)
Theorem C87_fast_arith_defined_iff : forall t op l r a b, signed_rep t ->
  raw_bounded (rmax t) l -> raw_bounded (rmax t) r -> 0 < den l -> 0 < den r ->
  value l = Some a -> value r = Some b ->
  (exists x, p_arith (denote fast_reduced_io) t op (RR l r) = Ok x) <-> fast_enough (rmax t) op a b.
Proof. exact c87_fast_arith_defined_iff. Qed.
Print Assumptions C87_fast_arith_defined_iff.

Example c87_fast_arith_defined_iff_case :
  fast_enough (rmax int32) Plus (1 # 46340) (1 # 46341) /\
  p_arith (denote fast_reduced_io) int32 Plus (RR (mkRaw 2 92680) (mkRaw 1 46341)) = Ok (mkRaw 92681 2147441940) /\
  ~ fast_enough (rmax int32) Plus (1 # 46342) (1 # 46342) /\
  p_arith (denote fast_reduced_io) int32 Plus (RR (mkRaw 1 46342) (mkRaw 1 46342)) = UB Overflow.
Proof.
  split; [vm_compute; repeat split; intros; discriminate|]. split; [vm_compute; reflexivity|].
  split; [|vm_compute; reflexivity]. intros [_ [A _]]. now vm_compute in A.
Qed.

(** C87: with an integer operand, as for the fraction z/1. *)
Theorem C87_fast_arith_int_defined_iff : forall t op l z a, signed_rep t ->
  raw_bounded (rmax t) l -> 0 < den l -> in_rep t z = true -> value l = Some a ->
  ((exists x, p_arith (denote fast_reduced_io) t op (RI l z) = Ok x) <-> fast_enough (rmax t) op a (inject_Z z)) /\
  ((exists x, p_arith (denote fast_reduced_io) t op (IR z l) = Ok x) <-> fast_enough (rmax t) op (inject_Z z) a).
Proof. exact c87_fast_arith_int_defined_iff. Qed.
Print Assumptions C87_fast_arith_int_defined_iff.

Example c87_fast_arith_int_defined_iff_case :
  fast_enough (rmax int32) Minus (inject_Z (-1073741824)) (-3 # 2) /\
  p_arith (denote fast_reduced_io) int32 Minus (IR (-1073741824) (mkRaw (-6) 4)) = Ok (mkRaw (-2147483645) 2) /\
  p_arith (denote fast_reduced_io) int32 Minus (IR (-1073741824) (mkRaw 6 4)) = UB Overflow.
Proof. vm_compute. repeat split; intros; discriminate. Qed.

(** C87: each of the six comparisons is defined exactly when the two cross products fit. *)
Theorem C87_fast_cmp_defined_iff : forall t op l r a b, signed_rep t ->
  raw_bounded (rmax t) l -> raw_bounded (rmax t) r -> 0 < den l -> 0 < den r ->
  value l = Some a -> value r = Some b ->
  (exists x, p_cmp (denote fast_reduced_io) t op (RR l r) = Ok x) <-> cross_fits (rmax t) a b.
Proof. exact c87_fast_cmp_defined_iff. Qed.
Print Assumptions C87_fast_cmp_defined_iff.

Theorem C87_fast_cmp_int_defined_iff : forall t op l z a, signed_rep t ->
  raw_bounded (rmax t) l -> 0 < den l -> in_rep t z = true -> value l = Some a ->
  ((exists x, p_cmp (denote fast_reduced_io) t op (RI l z) = Ok x) <-> cross_fits (rmax t) a (inject_Z z)) /\
  ((exists x, p_cmp (denote fast_reduced_io) t op (IR z l) = Ok x) <-> cross_fits (rmax t) (inject_Z z) a).
Proof. exact c87_fast_cmp_int_defined_iff. Qed.
Print Assumptions C87_fast_cmp_int_defined_iff.

Example c87_fast_cmp_defined_iff_case :
  cross_fits (rmax int32) (1 # 65536) (1 # 65537) /\
  p_cmp (denote fast_reduced_io) int32 Lt (RR (mkRaw 1 65536) (mkRaw 1 65537)) = Ok false /\
  p_cmp (denote fast_reduced_io) int32 Lt (RI (mkRaw 1 65536) 32767) = Ok true /\
  p_cmp (denote fast_reduced_io) int32 Lt (RI (mkRaw 1 65536) 32768) = UB Overflow.
Proof. vm_compute. repeat split; intros; discriminate. Qed.

(** C87: wherever arithmetic under a policy that returns lowest terms is defined, the
    same policy built on safe returns the identical fraction: so the default policy can
    replace fast_reduced_io. *)
Theorem C87_safe_replaces_fast : forall o t op a r, signed_rep t -> wf_args t a -> positive_dens a ->
  output_canonical o = true ->
  p_arith (denote o) t op a = Ok r -> p_arith (denote (on_safe o)) t op a = Ok r.
Proof. exact c87_safe_replaces_fast. Qed.
Print Assumptions C87_safe_replaces_fast.

(** C87: and in whole expressions that denote a number, of any size. *)
Theorem C87_safe_replaces_fast_expressions : forall o t e r q, signed_rep t -> wf_expr t e -> positive_leaves e ->
  output_canonical o = true -> denotes e = Some q ->
  eval (denote o) t e = Ok r -> eval (denote (on_safe o)) t e = Ok r.
Proof. exact c87_safe_replaces_fast_expressions. Qed.
Print Assumptions C87_safe_replaces_fast_expressions.

Example c87_safe_replaces_fast_case :
  on_safe fast_reduced_io = defaults /\ on_safe fast_reduced_o = safe_reduced_o /\
  let e := Bin Divides (Bin Plus (Leaf (mkRaw 1 6)) (Leaf (mkRaw 3 4))) (BinInt Minus (Neg (Leaf (mkRaw 2 8))) 2) in
  wf_expr int32 e /\ positive_leaves e /\ denotes e <> None /\
  eval (denote fast_reduced_io) int32 e = Ok (mkRaw (-11) 27) /\ eval (denote defaults) int32 e = Ok (mkRaw (-11) 27).
Proof. split; [reflexivity|]. split; [reflexivity|]. cbv zeta. repeat split; try (vm_compute; (reflexivity || discriminate)). Qed.

(** C87: not the other way round, nor for comparisons: each policy compares fractions
    the other cannot. *)
Theorem C87_neither_contains_refuted :
  (exists l r, 0 < den l /\ 0 < den r /\ p_arith (denote defaults) int32 Plus (RR l r) = Ok (mkRaw 1 32768) /\
     p_arith (denote fast_reduced_io) int32 Plus (RR l r) = UB Overflow) /\
  (exists l r, 0 < den l /\ 0 < den r /\ p_cmp (denote defaults) int32 Lt (RR l r) = Ok true /\
     p_cmp (denote fast_reduced_io) int32 Lt (RR l r) = UB Overflow) /\
  (exists l r, 0 < den l /\ 0 < den r /\ p_cmp (denote fast_reduced_io) int32 Lt (RR l r) = Ok true /\
     p_cmp (denote defaults) int32 Lt (RR l r) = UB LibPrecond).
Proof. exact c87_neither_contains_refuted. Qed.
Print Assumptions C87_neither_contains_refuted.

(** C87: for * and /, and for every arithmetic operator when the denominators in lowest
    terms have no common factor, the two policies are defined on the same operands. *)
Theorem C87_same_domain : forall t op l r a b, signed_rep t ->
  raw_bounded (rmax t) l -> raw_bounded (rmax t) r -> 0 < den l -> 0 < den r ->
  value l = Some a -> value r = Some b ->
  op = Multiplies \/ op = Divides \/ Z.gcd (low_den a) (low_den b) = 1 ->
  agree (p_arith (denote fast_reduced_io) t op (RR l r)) (p_arith (denote defaults) t op (RR l r)).
Proof. exact c87_same_domain. Qed.
Print Assumptions C87_same_domain.

Example c87_same_domain_case :
  Z.gcd (low_den (1 # 65536)) (low_den (2 # 65537)) = 1 /\
  p_arith (denote fast_reduced_io) int32 Plus (RR (mkRaw 1 65536) (mkRaw 2 65537)) = UB Overflow /\
  p_arith (denote defaults) int32 Plus (RR (mkRaw 1 65536) (mkRaw 2 65537)) = UB LibPrecond /\
  p_arith (denote fast_reduced_io) int32 Modulus (RR (mkRaw 46339 46340) (mkRaw 2 46341)) = Ok (mkRaw 30893 715813980) /\
  p_arith (denote defaults) int32 Modulus (RR (mkRaw 46339 46340) (mkRaw 2 46341)) = Ok (mkRaw 30893 715813980).
Proof. repeat split; vm_compute; reflexivity. Qed.
