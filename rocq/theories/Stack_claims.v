(** Proofs of the statements in Props_Stack.v. *)

From Coq Require Import ZArith List Bool Lia.
From Verif Require Import Machine Raw Ops Spec Fraction Program Stack_spec.
From Verif Require Import Stack_proofs.
Import ListNotations.
Open Scope Z_scope.

Lemma c97_collapse : forall o, exists b i u, same_policy o (one_of_18 b i u).
Proof.
  intros o. exists (match bottom o with Fast => false | _ => true end), (effect (input_modes o)), (effect (output_modes o)).
  replace (one_of_18 _ _ _) with (collapsed o); [apply collapse|].
  unfold one_of_18, collapsed. destruct (bottom_base o) as [-> | ->]; reflexivity.
Qed.

Lemma c97_same : forall o o', indistinguishable o o' <->
  bottom o = bottom o' /\ effect (input_modes o) = effect (input_modes o') /\ effect (output_modes o) = effect (output_modes o').
Proof.
  exact policy_iff.
Qed.

Lemma c97_eighteen : forall b i u b' i' u', indistinguishable (one_of_18 b i u) (one_of_18 b' i' u') -> b = b' /\ i = i' /\ u = u'.
Proof.
  intros b i u b' i' u' H. apply policy_iff in H.
  destruct b, i, u, b', i', u'; destruct H as (A & B & C); vm_compute in A, B, C; try discriminate; auto.
Qed.

Lemma c97_programs : forall o o' ty fuel s c, bottom o = bottom o' ->
  effect (input_modes o) = effect (input_modes o') -> effect (output_modes o) = effect (output_modes o') ->
  plain_store ty s -> plain_s c -> exec (denote o) ty fuel s c = exec (denote o') ty fuel s c.
Proof.
  intros o o' ty fuel s c A B C S P. exact (proj1 (exec_same o o' (same_shape o o' A B C) ty fuel c s S P)).
Qed.

