(** Proofs of the statements in Props_Program.v. *)

From Coq Require Import ZArith QArith Qabs Bool Lia Lqa.
From Verif Require Import Machine Raw Ops Spec Fraction Fmath Mixed_spec Program Program_spec.
From Verif Require Import Machine_proofs Value_proofs Program_proofs Program2_proofs.
Open Scope Z_scope.

Lemma c66_simulation : forall o ty fuel s q c s',
  output_canonical o = true -> wf_store ty s -> represents s q -> wf_s ty c ->
  exec (denote o) ty fuel s c = Some (Ok s') ->
  exists q', run fuel q c = Some q' /\ represents s' q' /\ wf_store ty s'.
Proof.
  intros o ty fuel s q c s' O W R F H. pose proof (exec_sim o ty fuel s q c O W R F) as M.
  rewrite H in M. exact M.
Qed.

Lemma c66_still_running : forall o ty fuel s q c,
  output_canonical o = true -> wf_store ty s -> represents s q -> wf_s ty c ->
  exec (denote o) ty fuel s c = None -> run fuel q c = None.
Proof.
  intros o ty fuel s q c O W R F H. pose proof (exec_sim o ty fuel s q c O W R F) as M.
  rewrite H in M. exact M.
Qed.

Lemma c66_policies_agree : forall o o' ty fuel s c s1 s2,
  output_canonical o = true -> output_canonical o' = true -> wf_store ty s -> wf_s ty c ->
  exec (denote o) ty fuel s c = Some (Ok s1) -> exec (denote o') ty fuel s c = Some (Ok s2) ->
  forall x, s1 x = s2 x.
Proof.
  exact exec_policies.
Qed.

Lemma c67_total : forall o B ty fuel s q c q',
  output_canonical o = true -> wf_store ty s -> represents s q -> wf_s ty c ->
  room_s B ty c -> run_small B fuel q c = Some q' ->
  run fuel q c = Some q' /\
  exists s', exec (denote o) ty fuel s c = Some (Ok s') /\ represents s' q' /\ wf_store ty s'.
Proof.
  intros o B ty fuel s q c q' O W R F Rm H. split; [eapply run_small_run; eauto|].
  eapply exec_total; eauto.
Qed.

Lemma c67_sum_program : forall o t N s,
  output_canonical o = true -> signed_rep t -> 0 <= N ->
  2 * ((N + 1) * (N + 2)) * ((N + 1) * (N + 2)) <= rmax t ->
  wf_store (fun _ => t) s -> s 0%nat = mkRaw N 1 ->
  exists n s', exec (denote o) (fun _ => t) n s sum_program = Some (Ok s')
               /\ s' 2%nat = mkRaw N (N + 1).
Proof.
  exact sum_correct.
Qed.

