(** Property theorems: policies instantiated with any mode.

    Each is closed by the lemma of the same name in Anymode_claims.v. *)

From Coq Require Import ZArith QArith Bool Lia.
From Verif Require Import Machine Raw Ops Modes Anymode Spec Anymode_spec.
From Verif Require Import Value_proofs Ops_proofs Algebra_proofs Arith_claims Anymode_proofs.
Open Scope Z_scope.
From Verif Require Import Anymode_claims.

(** C119: a policy whose modes are the values 0 and 1 is the policy with the
    enumerators: every member function has the same outcome on every operand. *)
Theorem C119_named : forall z o, spells z o ->
  (forall t op a, p_arith (denote_any z) t op a = p_arith (denote o) t op a) /\
  (forall t op a, p_cmp (denote_any z) t op a = p_cmp (denote o) t op a) /\
  (forall t v, p_negate (denote_any z) t v = p_negate (denote o) t v).
Proof. exact c119_named. Qed.
Print Assumptions C119_named.

(** C119: every policy without a stray mode is such a policy. *)
Theorem C119_spelled : forall z, (exists o, spells z o) <-> ~ stray_input z /\ ~ stray_output z.
Proof. exact c119_spelled. Qed.
Print Assumptions C119_spelled.

(** C119: as soon as one mode anywhere in the policy is not an enumerator, no
    arithmetic operator ever returns a number: the result is undefined. *)
Theorem C119_undefined : forall z t op a r, wf_rep t -> wf_args t a -> stray_input z \/ stray_output z ->
  p_arith (denote_any z) t op a = Ok r -> value r = None.
Proof. exact c119_undefined. Qed.
Print Assumptions C119_undefined.

(** C119: hence, whatever the modes, a number that arithmetic returns is the
    exact one. *)
Theorem C119_never_wrong : forall z t op a r q, wf_rep t -> rsigned t = true -> wf_args t a -> defined_args a ->
  p_arith (denote_any z) t op a = Ok r -> value r = Some q ->
  same_value (Some q) (exact_opt op (left_value a) (right_value a)).
Proof. exact c119_never_wrong. Qed.
Print Assumptions C119_never_wrong.

(** C119: a reduced_output with a stray mode is defined exactly where the policy
    inside is, and then returns 0/0. *)
Theorem C119_output : forall z m t op a, ~ enumerator m ->
  p_arith (denote_any (AnyOutput z m)) t op a =
  match p_arith (denote_any z) t op a with Ok _ => Ok (mkRaw 0 0) | UB u => UB u end.
Proof. exact c119_output. Qed.
Print Assumptions C119_output.

(** C119: over safe, a reduced_input with a stray mode makes every sum,
    difference and remainder of two fractions undefined behaviour. *)
Theorem C119_input_traps : forall z t op l r, wf_rep t -> wf_raw t l -> wf_raw t r ->
  rests_on_safe z = true -> stray_input z -> op = Plus \/ op = Minus \/ op = Modulus ->
  exists u, p_arith (denote_any z) t op (RR l r) = UB u.
Proof. exact c119_input_traps. Qed.
Print Assumptions C119_input_traps.

(** C119: and comparisons under it answer as if every fraction were undefined:
    != is true and the five others are false. *)
Theorem C119_input_compares : forall z t op a b, wf_rep t -> wf_args t a -> stray_input z ->
  p_cmp (denote_any z) t op a = Ok b -> b = match op with Ne => true | _ => false end.
Proof. exact c119_input_compares. Qed.
Print Assumptions C119_input_compares.

(** C119: the modes of reduced_output do not matter to comparisons. *)
Theorem C119_output_compares : forall z,
  (forall o, compares_as z o -> forall t op a, p_cmp (denote_any z) t op a = p_cmp (denote o) t op a) /\
  (~ stray_input z -> exists o, compares_as z o).
Proof. exact c119_output_compares. Qed.
Print Assumptions C119_output_compares.

(** C119: the modes of reduced_input do not matter to unary minus. *)
Theorem C119_negates : forall z,
  (forall o, negates_as z o -> forall t v, p_negate (denote_any z) t v = p_negate (denote o) t v) /\
  (~ stray_output z -> exists o, negates_as z o).
Proof. exact c119_negates. Qed.
Print Assumptions C119_negates.

(** C119: with a stray mode of reduced_output it returns no number. *)
Theorem C119_negates_undefined : forall z t v r, wf_rep t -> wf_raw t v -> stray_output z ->
  p_negate (denote_any z) t v = Ok r -> value r = None.
Proof. exact c119_negates_undefined. Qed.
Print Assumptions C119_negates_undefined.

(** C119: so an operator need not be exact, and a fraction need not equal itself. *)
Theorem C119_refuted :
  (exists z l r, p_arith (denote_any z) int32 Plus (RR l r) = Ok (mkRaw 0 0) /\ value l <> None /\ value r <> None) /\
  (exists z v, value v <> None /\ p_cmp (denote_any z) int32 Eq (RR v v) = Ok false).
Proof. exact c119_refuted. Qed.
Print Assumptions C119_refuted.

Example C119_nonvacuous :
  let z := AnyInput (AnyOutput (AnyOutput AnySafe 2) 0) 1 in
  stray_output z /\ ~ stray_input z /\ wf_args int32 (RR (mkRaw 1 2) (mkRaw 1 3)) /\
  p_arith (denote_any z) int32 Plus (RR (mkRaw 1 2) (mkRaw 1 3)) = Ok (mkRaw 0 0) /\
  p_negate (denote_any z) int32 (mkRaw 1 2) = Ok (mkRaw 0 0) /\
  p_cmp (denote_any z) int32 Lt (RR (mkRaw 1 3) (mkRaw 1 2)) = Ok true /\
  p_arith (denote_any (AnyInput AnyFast (-1))) int32 Plus (RI (mkRaw 1 2) 3) = Ok (mkRaw 0 0) /\
  p_arith (denote_any (AnyInput (AnyOutput AnySafe 0) 1)) int32 Plus (RR (mkRaw 1 2) (mkRaw 1 3)) = Ok (mkRaw 5 6).
Proof.
  cbv zeta. split; [cbn; unfold enumerator; lia|]. split; [cbn; unfold enumerator; lia|].
  split; [split; split; reflexivity|].
  split; [vm_compute; reflexivity|]. split; [vm_compute; reflexivity|]. split; [vm_compute; reflexivity|].
  split; vm_compute; reflexivity.
Qed.
