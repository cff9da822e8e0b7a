(** Property theorems: When reducing operands is redundant.

    Each is closed by the lemma of the same name in Redundant_claims.v. *)

From Coq Require Import ZArith List Bool Lia.
From Verif Require Import Machine Raw Ops Spec Fraction Mixed_spec Program Wide_spec Stack_spec Redundant_spec.
From Verif Require Import Redundant_proofs.
Import ListNotations.
Open Scope Z_scope.
From Verif Require Import Redundant_claims.

(** C98: on operands in lowest terms (whose numerators are not the least integer) the
    layers that reduce operands change nothing: every operator has the same outcome
    without them, undefined behaviour included, in every representation. *)
Theorem C98_operators : forall o t, wf_rep t ->
  (forall op a, settled_args t a -> p_arith (denote o) t op a = p_arith (denote (no_input o)) t op a) /\
  (forall op a, settled_args t a -> p_cmp (denote o) t op a = p_cmp (denote (no_input o)) t op a) /\
  (forall v, settled t v -> p_negate (denote o) t v = p_negate (denote (no_input o)) t v).
Proof. exact c98_operators. Qed.
Print Assumptions C98_operators.

Example c98_operators_nonvacuous : settled_args int32 (RR (mkRaw (-3) 4) (mkRaw 5 6)) /\
  p_arith (denote defaults) int32 Plus (RR (mkRaw (-3) 4) (mkRaw 5 6)) = Ok (mkRaw 1 12) /\ no_input defaults = safe_reduced_o.
Proof. split; [|vm_compute; auto]. repeat split; try reflexivity; try (vm_compute; discriminate); right; split; reflexivity. Qed.

(** C98: so for whole programs whose results are reduced with normalised signs, reducing
    the operands as well is redundant, provided the constants and the initial memory
    are in lowest terms: with and without it, after any number of steps, the program
    is in the same memory or has met the same undefined behaviour. *)
Theorem C98_programs : forall o ty fuel s c, normalises_output o -> (forall x, signed_rep (ty x)) ->
  settled_store ty s -> static_s ty c -> settled_s c ->
  exec (denote o) ty fuel s c = exec (denote (no_input o)) ty fuel s c.
Proof. exact c98_programs. Qed.
Print Assumptions C98_programs.

Example c98_programs_nonvacuous :
  let s := fun x : nat => mkRaw 0 1 in
  normalises_output defaults /\ settled_store large_types s /\ static_s large_types harmonic /\ settled_s harmonic /\
  match exec (denote defaults) large_types 40 s harmonic with Some (Ok s') => s' 1%nat = mkRaw 49 20 | _ => False end.
Proof.
  cbv zeta. split; [left; reflexivity|]. split; [|split; [|split]].
  - intros [|x]; repeat split; try reflexivity; try (vm_compute; discriminate); right; split; reflexivity.
  - vm_compute. repeat split; congruence.
  - cbn. repeat split; try reflexivity; try (vm_compute; discriminate); right; split; reflexivity.
  - vm_compute. reflexivity.
Qed.

(** C98: in particular safe_reduced_o runs such programs as the default policy does,
    and fast_reduced_o as fast_reduced_io does. *)
Theorem C98_named : forall ty fuel s c, (forall x, signed_rep (ty x)) ->
  settled_store ty s -> static_s ty c -> settled_s c ->
  exec (denote safe_reduced_o) ty fuel s c = exec (denote defaults) ty fuel s c /\
  exec (denote fast_reduced_o) ty fuel s c = exec (denote fast_reduced_io) ty fuel s c.
Proof. exact c98_named. Qed.
Print Assumptions C98_named.

(** C98: an output layer that keeps signs is not enough: removing the input layer then
    changes what a program leaves in memory. *)
Theorem C98_keeping_refuted : exists o ty fuel s c,
  In ignore_signs_mode (output_modes o) /\ (forall x, signed_rep (ty x)) /\ settled_store ty s /\ static_s ty c /\ settled_s c /\
  match exec (denote o) ty fuel s c, exec (denote (no_input o)) ty fuel s c with
  | Some (Ok m), Some (Ok m') => m 0%nat = mkRaw 1 2 /\ m' 0%nat = mkRaw (-1) (-2)
  | _, _ => False
  end.
Proof. exact c98_keeping_refuted. Qed.
Print Assumptions C98_keeping_refuted.

(** C98: nor may the memory start with fractions that are not in lowest terms: without
    the input layer the program can then overflow. *)
Theorem C98_unreduced_refuted : exists ty fuel s c,
  (forall x, signed_rep (ty x)) /\ typed_store ty s /\ static_s ty c /\ settled_s c /\
  match exec (denote defaults) ty fuel s c, exec (denote safe_reduced_o) ty fuel s c with
  | Some (Ok m), Some (UB Overflow) => m 0%nat = mkRaw 1 1
  | _, _ => False
  end.
Proof. exact c98_unreduced_refuted. Qed.
Print Assumptions C98_unreduced_refuted.
