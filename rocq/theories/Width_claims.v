(** Proofs of the statements in Props_Width.v. *)

From Coq Require Import ZArith QArith Bool Lia List.
From Verif Require Import Machine Raw Ops Spec Fraction Mixed_spec Program Program_spec Width_spec.
From Verif Require Import Machine_proofs Value_proofs Fraction_proofs ProgDef_spec Width_proofs.
From Verif Require Import ProgDef_claims Program_claims.
Open Scope Z_scope.

Lemma c109_expression : forall t0 s q e, wf_store (fun _ => t0) s -> represents s q -> lowest_f e ->
  eventually (fun t => exists v, feval (denote defaults) (fun _ => t) s (retype_f t e) = Ok v) <-> fpossible q e.
Proof.
  intros t0 s q e S R L. pose proof (store_wf t0 s S) as WS. pose proof (f_wf e L) as WF. split.
  - intros H. refine (ev_at _ _ _ (ev_and _ _ H (ev_and _ _ WS WF))). intros t _ (A & B & C).
    apply (c93_expression (fun _ => t) s q) in A; auto. now apply f_back in A.
  - intros H. refine (ev_mono _ _ _ (ev_and _ _ (f_ev q e H) (ev_and _ _ WS WF))). intros t _ (A & B & C).
    now apply (c93_expression (fun _ => t) s q).
Qed.

Lemma c109_program : forall t0 fuel s q c, wf_store (fun _ => t0) s -> represents s q -> lowest_s c ->
  eventually (fun t => exists s', exec (denote defaults) (fun _ => t) fuel s (retype_s t c) = Some (Ok s')) <-> run_possible fuel q c.
Proof.
  intros t0 fuel s q c S R L. pose proof (store_wf t0 s S) as WS. pose proof (s_wf c L) as WF. split.
  - intros H. refine (ev_at _ _ _ (ev_and _ _ H (ev_and _ _ WS WF))). intros t _ (A & B & C).
    apply (c93_program (fun _ => t) fuel s q) in A; auto. now apply s_back in A.
  - intros H. refine (ev_mono _ _ _ (ev_and _ _ (s_ev fuel q c H) (ev_and _ _ WS WF))). intros t _ (A & B & C).
    now apply (c93_program (fun _ => t) fuel s q).
Qed.

Lemma c109_impossible : forall t fuel s q c, wf_store (fun _ => t) s -> represents s q -> wf_s (fun _ => t) (retype_s t c) ->
  ~ run_possible fuel q c -> forall s', exec (denote defaults) (fun _ => t) fuel s (retype_s t c) <> Some (Ok s').
Proof.
  intros t fuel s q c S R W N s' E. apply N.
  assert (A : exists s', exec (denote defaults) (fun _ => t) fuel s (retype_s t c) = Some (Ok s')) by eauto.
  apply (c93_program (fun _ => t) fuel s q) in A; auto. now apply s_back in A.
Qed.

Lemma c109_same : forall t u fuel s q c s1 s2, wf_store (fun _ => t) s -> wf_store (fun _ => u) s -> represents s q ->
  wf_s (fun _ => t) (retype_s t c) -> wf_s (fun _ => u) (retype_s u c) ->
  exec (denote defaults) (fun _ => t) fuel s (retype_s t c) = Some (Ok s1) ->
  exec (denote defaults) (fun _ => u) fuel s (retype_s u c) = Some (Ok s2) ->
  (forall x, s1 x = s2 x) /\ exists q', run fuel q c = Some q' /\ represents s1 q'.
Proof.
  intros t u fuel s q c s1 s2 ST SU R WT WU E1 E2.
  destruct (c66_simulation defaults (fun _ => t) fuel s q _ s1 eq_refl ST R WT E1) as (q1 & R1 & P1 & W1).
  destruct (c66_simulation defaults (fun _ => u) fuel s q _ s2 eq_refl SU R WU E2) as (q2 & R2 & P2 & W2).
  rewrite run_retype in R1, R2. rewrite R1 in R2. injection R2 as <-. split; [|eauto].
  intros x. apply canonical_unique; [apply W1|apply W2|]. transitivity (q1 x); [apply P1|]. symmetry. apply P2.
Qed.

