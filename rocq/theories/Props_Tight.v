(** Property theorems: where operations are free of undefined behaviour.

    Each is closed by the lemma of the same name in Tight_claims.v. *)

From Coq Require Import ZArith QArith List Bool Lia.
From Verif Require Import Machine Raw Ops Spec Fraction Mixed_spec Tight_spec.
From Verif Require Import Machine_proofs Value_proofs Ops_proofs Tight_proofs.
Import ListNotations.
Open Scope Z_scope.
From Verif Require Import Tight_claims.

(** C64: fraction op fraction. *)
Theorem C64_fractions : forall o t op l r,
  signed_rep t -> products_fit (rmax t) op l r ->
  exists x, p_arith (denote o) t op (RR l r) = Ok x.
Proof. exact c64_fractions. Qed.
Print Assumptions C64_fractions.

(** C64: fraction op integer, as for the fraction z/1. *)
Theorem C64_fraction_integer : forall o t op l z,
  signed_rep t -> products_fit (rmax t) op l (mkRaw z 1) ->
  exists x, p_arith (denote o) t op (RI l z) = Ok x.
Proof. exact c64_fraction_integer. Qed.
Print Assumptions C64_fraction_integer.

Theorem C64_integer_fraction : forall o t op z r,
  signed_rep t -> products_fit (rmax t) op (mkRaw z 1) r ->
  exists x, p_arith (denote o) t op (IR z r) = Ok x.
Proof. exact c64_integer_fraction. Qed.
Print Assumptions C64_integer_fraction.

(** C64: comparisons, also of undefined fractions. *)
Theorem C64_comparisons : forall o t op l r,
  signed_rep t -> cross_fit (rmax t) l r -> exists b, p_cmp (denote o) t op (RR l r) = Ok b.
Proof. exact c64_comparisons. Qed.
Print Assumptions C64_comparisons.

Theorem C64_integer_comparisons : forall o t op l z,
  signed_rep t -> cross_fit (rmax t) l (mkRaw z 1) ->
  (exists b, p_cmp (denote o) t op (RI l z) = Ok b) /\ (exists b, p_cmp (denote o) t op (IR z l) = Ok b).
Proof. exact c64_integer_comparisons. Qed.
Print Assumptions C64_integer_comparisons.

(** C64: the bound is attained; one more and the product overflows, under safe
    and fast. *)
Example C64_nonvacuous :
  products_fit (rmax int32) Multiplies (mkRaw 65536 1) (mkRaw 32767 1) /\
  p_arith (denote defaults) int32 Multiplies (RR (mkRaw 65536 1) (mkRaw 32767 1)) = Ok (mkRaw 2147418112 1) /\
  p_arith (denote defaults) int32 Multiplies (RR (mkRaw 65536 1) (mkRaw 32768 1)) = UB Overflow /\
  products_fit (rmax int32) Plus (mkRaw 500000000 3) (mkRaw (-1) 4) /\
  cross_fit (rmax int32) (mkRaw 0 0) (mkRaw (-7) 3).
Proof. unfold products_fit, cross_fit. cbn [num den]. repeat split; vm_compute; auto; discriminate. Qed.
