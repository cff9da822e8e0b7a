(** Proofs of the statements in Props_Redundant.v. *)

From Coq Require Import ZArith List Bool Lia.
From Verif Require Import Machine Raw Ops Spec Fraction Mixed_spec Program Wide_spec Stack_spec Redundant_spec.
From Verif Require Import Redundant_proofs.
Import ListNotations.
Open Scope Z_scope.

Lemma c98_operators : forall o t, wf_rep t ->
  (forall op a, settled_args t a -> p_arith (denote o) t op a = p_arith (denote (no_input o)) t op a) /\
  (forall op a, settled_args t a -> p_cmp (denote o) t op a = p_cmp (denote (no_input o)) t op a) /\
  (forall v, settled t v -> p_negate (denote o) t v = p_negate (denote (no_input o)) t v).
Proof.
  intros o t W. split; [|split]; intros; [now apply no_input_arith|now apply no_input_cmp|now apply no_input_negate].
Qed.

Lemma c98_programs : forall o ty fuel s c, normalises_output o -> (forall x, signed_rep (ty x)) ->
  settled_store ty s -> static_s ty c -> settled_s c ->
  exec (denote o) ty fuel s c = exec (denote (no_input o)) ty fuel s c.
Proof.
  intros o ty fuel s c N T M S P. exact (proj1 (exec_redundant o N ty T fuel c s M S P)).
Qed.

Lemma c98_named : forall ty fuel s c, (forall x, signed_rep (ty x)) ->
  settled_store ty s -> static_s ty c -> settled_s c ->
  exec (denote safe_reduced_o) ty fuel s c = exec (denote defaults) ty fuel s c /\
  exec (denote fast_reduced_o) ty fuel s c = exec (denote fast_reduced_io) ty fuel s c.
Proof.
  intros ty fuel s c T M S P. split; symmetry.
  - exact (c98_programs defaults ty fuel s c (or_introl eq_refl) T M S P).
  - exact (c98_programs fast_reduced_io ty fuel s c (or_introl eq_refl) T M S P).
Qed.

Lemma c98_keeping_refuted : exists o ty fuel s c,
  In ignore_signs_mode (output_modes o) /\ (forall x, signed_rep (ty x)) /\ settled_store ty s /\ static_s ty c /\ settled_s c /\
  match exec (denote o) ty fuel s c, exec (denote (no_input o)) ty fuel s c with
  | Some (Ok m), Some (Ok m') => m 0%nat = mkRaw 1 2 /\ m' 0%nat = mkRaw (-1) (-2)
  | _, _ => False
  end.
Proof.
  exists (ReducedInput (ReducedOutput Safe ignore_signs_mode) ignore_signs_mode), (fun _ => int32), 5%nat, (fun _ => mkRaw 1 2),
    (SSeq (SOpAssignInt Divides 0%nat (IConst int32 (-1))) (SAssign 0%nat (ENeg (EVar 0%nat)))).
  split; [left; reflexivity|]. split; [intros _; vm_compute; split; [discriminate|reflexivity]|].
  split; [intros x; repeat split; try reflexivity; try (vm_compute; discriminate); right; split; reflexivity|].
  split; [vm_compute; repeat split; congruence|]. split; [cbn; auto|]. vm_compute. auto.
Qed.

Lemma c98_unreduced_refuted : exists ty fuel s c,
  (forall x, signed_rep (ty x)) /\ typed_store ty s /\ static_s ty c /\ settled_s c /\
  match exec (denote defaults) ty fuel s c, exec (denote safe_reduced_o) ty fuel s c with
  | Some (Ok m), Some (UB Overflow) => m 0%nat = mkRaw 1 1
  | _, _ => False
  end.
Proof.
  exists (fun _ => int32), 5%nat, (fun _ => mkRaw 65536 65536), (SOpAssign Multiplies 0%nat (EVar 0%nat)).
  split; [intros _; vm_compute; split; [discriminate|reflexivity]|].
  split; [intros x; vm_compute; repeat split; congruence|].
  split; [vm_compute; repeat split; congruence|]. split; [cbn; auto|]. vm_compute. auto.
Qed.

