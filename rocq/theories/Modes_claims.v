(** Proofs of the statements in Props_Modes.v. *)

From Coq Require Import ZArith QArith List Bool Lia.
From Verif Require Import Machine Raw Ops Fraction Fmath Modes Spec Fmath_spec Mixed_spec.
From Verif Require Import Raw_claims Small_claims Fmath_claims.
Import ListNotations.
Open Scope Z_scope.

Lemma c95_reduce_named : forall t v mode r, wf_rep t -> wf_raw t v -> mode = 0 \/ mode = 1 ->
  reduce_any t v mode = Ok r ->
  same_value (value r) (value v) /\ (value v <> None -> Z.gcd (num r) (den r) = 1 /\ (mode = 0 -> 0 < den r)).
Proof.
  intros t v mode r W V [->| ->] H; cbn in H.
  - destruct (c19_reduce_value_and_form t v normalize_signs_mode r W V H) as (_ & S & _ & D).
    split; [exact S|]. intros N. destruct (D N). auto.
  - destruct (c19_reduce_value_and_form t v ignore_signs_mode r W V H) as (_ & S & _ & D).
    split; [exact S|]. intros N. destruct (D N). split; [auto|lia].
Qed.

Lemma c95_reduce_other : forall t v mode, mode <> 0 -> mode <> 1 ->
  exists r, reduce_any t v mode = Ok r /\ value r = None /\ (same_value (value r) (value v) <-> value v = None).
Proof.
  intros t v mode A B. exists (mkRaw 0 0). unfold reduce_any.
  rewrite (proj2 (Z.eqb_neq mode 0) A), (proj2 (Z.eqb_neq mode 1) B).
  split; [reflexivity|]. split; [reflexivity|]. cbn. destruct (value v); split; auto; [contradiction|discriminate].
Qed.

Lemma c95_reduce_refuted : exists v mode r, wf_raw int32 v /\
  reduce_any int32 v mode = Ok r /\ ~ same_value (value r) (value v).
Proof.
  exists (mkRaw 1 2), 2, (mkRaw 0 0). split; [split; reflexivity|]. split; [reflexivity|]. intros H. exact H.
Qed.

Lemma c95_to_whole : forall o t v mode k, signed_rep t -> wf_raw t v ->
  built_on_safe o = true \/ normalises_inputs o = true \/ 0 < den v ->
  to_whole_any (denote o) t v mode = Ok k ->
  exists q, value v = Some q /\ (~ tiny_negative q ->
    (mode = 0 -> is_trunc k q) /\ (mode = 1 -> is_ceil k q) /\ (mode = 2 -> is_floor k q) /\
    (mode <> 0 -> mode <> 1 -> mode <> 2 -> is_round k q)).
Proof.
  intros o t v mode k S V C H. unfold to_whole_any in H.
  assert (G : forall m, f_to_whole (denote o) t v m = Ok k -> _) by (intros m; exact (c27_to_whole o t v m k S V C)).
  destruct (Z.eqb_spec mode 0) as [E0|E0].
  { destruct (G round_trunc H) as (q & E & F). exists q. split; [exact E|]. intros N. specialize (F N). (split; [|split; [|split]]); intros; first [exact F|lia]. }
  destruct (Z.eqb_spec mode 1) as [E1|E1].
  { destruct (G round_ceil H) as (q & E & F). exists q. split; [exact E|]. intros N. specialize (F N). (split; [|split; [|split]]); intros; first [exact F|lia]. }
  destruct (Z.eqb_spec mode 2) as [E2|E2].
  { destruct (G round_floor H) as (q & E & F). exists q. split; [exact E|]. intros N. specialize (F N). (split; [|split; [|split]]); intros; first [exact F|lia]. }
  assert (H' : f_to_whole (denote o) t v round_round = Ok k) by (destruct (mode =? 3); exact H).
  destruct (G round_round H') as (q & E & F). exists q. split; [exact E|]. intros N. specialize (F N). (split; [|split; [|split]]); intros; first [exact F|lia].
Qed.

Lemma c95_redenominate : forall o t v d mode r, wf_rep t -> rsigned t = true -> wf_raw t v ->
  built_on_safe o = true \/ normalises_inputs o = true \/ 0 < den v ->
  in_rep t d = true -> d <> 0 -> mode <> 0 -> mode <> 1 -> mode <> 2 ->
  redenominate_any (denote o) t v d mode = Ok r ->
  exists q v' k, value v = Some q /\ value r = Some v' /\ den r = d /\
    is_over v' k d /\
    (below_minus_half (q * inject_Z d) -> k = 0) /\
    (~ below_minus_half (q * inject_Z d) -> is_round k (q * inject_Z d)).
Proof.
  intros o t v d mode r W S V C D N A B E H. apply (c31_round_redenominate_partial o t v d r W S V C D N).
  unfold redenominate_any in H.
  rewrite (proj2 (Z.eqb_neq mode 0) A), (proj2 (Z.eqb_neq mode 1) B), (proj2 (Z.eqb_neq mode 2) E) in H.
  destruct (mode =? 3); exact H.
Qed.

