(** Proofs of the statements in Props_Program2.v. *)

From Coq Require Import ZArith QArith Bool List Lia.
From Verif Require Import Machine Raw Ops Fraction Spec Mixed_spec Program Program_spec Program2_spec.
From Verif Require Import Program_proofs Program2_proofs Program3_proofs Program4_proofs Program5_proofs.
Open Scope Z_scope.

Lemma c77_simulation : forall o pos ty fuel s q c s',
  any_store pos ty s -> represents s q -> suits o pos ty c ->
  exec (denote o) ty fuel s c = Some (Ok s') ->
  exists q', run fuel q c = Some q' /\ represents s' q' /\ any_store pos ty s'.
Proof.
  intros o pos ty fuel s q c s' W R F H. pose proof (exec_any o pos ty fuel s q c W R F) as M.
  rewrite H in M. exact M.
Qed.

Lemma c77_still_running : forall o pos ty fuel s q c,
  any_store pos ty s -> represents s q -> suits o pos ty c ->
  exec (denote o) ty fuel s c = None -> run fuel q c = None.
Proof.
  intros o pos ty fuel s q c W R F H. pose proof (exec_any o pos ty fuel s q c W R F) as M.
  rewrite H in M. exact M.
Qed.

Lemma c77_policies_agree : forall o o' pos pos' ty fuel s c s1 s2,
  any_store pos ty s -> any_store pos' ty s -> suits o pos ty c -> suits o' pos' ty c ->
  exec (denote o) ty fuel s c = Some (Ok s1) -> exec (denote o') ty fuel s c = Some (Ok s2) ->
  forall x, same_value (value (s1 x)) (value (s2 x)).
Proof.
  exact exec_any_agree.
Qed.

Lemma c77_faithful_policies : forall o,
  faithful o <-> output_canonical o = true \/ normalises_inputs o = true.
Proof.
  exact faithful_iff.
Qed.

Lemma c78_total : forall o pos B ty fuel s q c q',
  reduces_inputs o = true -> any_store pos ty s -> represents s q -> no_least_store ty s ->
  suits o pos ty c -> no_least_s c -> room_s B ty c -> run_small B fuel q c = Some q' ->
  exists s', exec (denote o) ty fuel s c = Some (Ok s') /\ represents s' q' /\ any_store pos ty s'.
Proof.
  exact exec_small_total.
Qed.

Lemma c78_unreduced_refuted : forall o, o = Safe \/ o = Fast ->
  exists B ty fuel s q c q',
    wf_store ty s /\ represents s q /\ wf_s ty c /\ no_parts c /\ room_s B ty c /\
    run_small B fuel q c = Some q' /\ exec (denote o) ty fuel s c = Some (UB Overflow).
Proof.
  intros o O.
  set (half := SSeq (SOpAssignInt Multiplies 0 (IConst int64 65536)) (SOpAssignInt Divides 0 (IConst int64 65536))).
  exists 65536, (fun _ => int64), 9%nat, (fun _ => mkRaw 1 1), (fun _ => Some 1%Q),
    (SSeq half (SSeq half (SSeq half half))). eexists.
  split; [intros x; split; [split; [unfold wf_rep; cbn; lia|reflexivity]|];
    split; [split; reflexivity|right; cbn; split; [lia|reflexivity]]|].
  split; [intros x; reflexivity|].
  split; [cbn; unfold signed_rep, wf_rep; cbn; repeat split; lia|].
  split; [cbn; tauto|]. split; [cbn; unfold room; cbn; repeat split; lia|].
  split; [vm_compute; reflexivity|]. destruct O as [-> | ->]; vm_compute; reflexivity.
Qed.

