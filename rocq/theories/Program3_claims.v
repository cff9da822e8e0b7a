(** Proofs of the statements in Props_Program3.v. *)

From Coq Require Import ZArith QArith Bool List Lia.
From Verif Require Import Machine Raw Ops Fraction Spec Program Program_spec Program3_spec.
From Verif Require Import Program6_proofs.
Open Scope Z_scope.

Lemma c79_total : forall o B ty fuel s q c q',
  output_canonical o = true -> typed_store ty s -> represents s q -> typed c ->
  run_fits B ty fuel q c = Some q' ->
  run fuel q c = Some q' /\
  exists s', exec (denote o) ty fuel s c = Some (Ok s') /\ represents s' q' /\ typed_store ty s'.
Proof.
  intros o B ty fuel s q c q' O W R F H. split; [eapply run_fits_run; eauto|eapply exec_fits; eauto].
Qed.

Lemma c79_unsigned_refuted : forall c,
  In c (SOpAssignInt Minus 0 (IConst uint32 1)
     :: SIf (BCmp Lt (ELit int32 (mkRaw (-1) 1)) (ELit uint32 (mkRaw 1 1)))
            SSkip (SAssign 0 (ELit uint32 (mkRaw 2 1))) :: nil)%list ->
  let ty := fun _ => uint32 in let s := fun _ => mkRaw 1 2 in let q := fun _ => Some (1 # 2)%Q in
  typed_store ty s /\ represents s q /\ typed c /\
  exists q' s', run_small 2 3 q c = Some q' /\ exec (denote defaults) ty 3 s c = Some (Ok s') /\ ~ represents s' q'.
Proof.
  intros c C. cbn zeta.
  assert (W : typed_store (fun _ => uint32) (fun _ => mkRaw 1 2))
    by (intros x; unfold wf_rep, wf_raw, canonical; cbn; repeat split; lia).
  split; [exact W|]. split; [intros x; reflexivity|].
  destruct C as [<-|[<-|[]]]; (split; [cbn; unfold wf_rep, wf_raw, canonical; cbn; repeat split; lia|]);
    (eexists; eexists; split; [vm_compute; reflexivity|]; split; [vm_compute; reflexivity|]);
    intros H; specialize (H 0%nat); vm_compute in H; discriminate.
Qed.

