(** Property theorems: client programs over signed and unsigned representations.

    Each is closed by the lemma of the same name in Program3_claims.v. *)

From Coq Require Import ZArith QArith Bool List Lia.
From Verif Require Import Machine Raw Ops Fraction Spec Program Program_spec Program3_spec.
From Verif Require Import Program6_proofs.
Open Scope Z_scope.
From Verif Require Import Program3_claims.

(** C79: whatever the representations of the variables, signed or not, and of
    the constants, a program whose values over the rationals fit the types they
    pass through (see [run_fits]) runs without undefined behaviour under a policy
    that returns lowest terms, and ends in the memory that represents its
    result.  No conversion, in particular to the common type, changes a value. *)
Theorem C79_total : forall o B ty fuel s q c q',
  output_canonical o = true -> typed_store ty s -> represents s q -> typed c ->
  run_fits B ty fuel q c = Some q' ->
  run fuel q c = Some q' /\
  exists s', exec (denote o) ty fuel s c = Some (Ok s') /\ represents s' q' /\ typed_store ty s'.
Proof. exact c79_total. Qed.
Print Assumptions C79_total.

(** Small values are not enough, and C66 does not carry over to unsigned
    representations: the first program computes 1/2 - 1 in unsigned int, the
    second tests -1 < 1U.  Under the default policy both end, without undefined
    behaviour, with a wrong value. *)
Theorem C79_unsigned_refuted : forall c,
  In c (SOpAssignInt Minus 0 (IConst uint32 1)
     :: SIf (BCmp Lt (ELit int32 (mkRaw (-1) 1)) (ELit uint32 (mkRaw 1 1)))
            SSkip (SAssign 0 (ELit uint32 (mkRaw 2 1))) :: nil)%list ->
  let ty := fun _ => uint32 in let s := fun _ => mkRaw 1 2 in let q := fun _ => Some (1 # 2)%Q in
  typed_store ty s /\ represents s q /\ typed c /\
  exists q' s', run_small 2 3 q c = Some q' /\ exec (denote defaults) ty 3 s c = Some (Ok s') /\ ~ represents s' q'.
Proof. exact c79_unsigned_refuted. Qed.
Print Assumptions C79_unsigned_refuted.

(** The hypotheses of C79, met by [mixed_program]. *)
Example C79_nonvacuous :
  let s := fun x => mkRaw 0 1 in
  output_canonical defaults = true /\ typed_store mixed_types s /\ represents s (fun _ => Some 0%Q) /\
  typed mixed_program /\
  match run_fits 400 mixed_types 12 (fun _ => Some 0%Q) mixed_program,
        exec (denote defaults) mixed_types 12 s mixed_program with
  | Some q, Some (Ok s') => same_value (q 2%nat) (Some (5 # 2)) /\ s' 2%nat = mkRaw 5 2 /\ s' 1%nat = mkRaw 3 1
  | _, _ => False
  end.
Proof.
  cbn zeta. split; [reflexivity|]. split.
  { intros [|[|[|x]]]; cbn; unfold wf_rep, wf_raw, canonical; cbn; repeat split; lia. }
  split; [intros x; reflexivity|]. split.
  { cbn; unfold wf_rep, wf_raw, canonical; cbn; repeat split; lia. }
  vm_compute. repeat split; reflexivity.
Qed.
