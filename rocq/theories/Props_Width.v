(** Property theorems: every program has a sufficient width.

    Each is closed by the lemma of the same name in Width_claims.v. *)

From Coq Require Import ZArith QArith Bool Lia List.
From Verif Require Import Machine Raw Ops Spec Fraction Mixed_spec Program Program_spec Width_spec.
From Verif Require Import Machine_proofs Value_proofs Fraction_proofs ProgDef_spec Width_proofs.
From Verif Require Import ProgDef_claims Program_claims.
Open Scope Z_scope.
From Verif Require Import Width_claims.

(** C109: an expression can be evaluated in every sufficiently wide type exactly when it
    takes no remainder by zero, no integer part of an undefined fraction, and no sum,
    difference or remainder with one. *)
Theorem C109_expression : forall t0 s q e, wf_store (fun _ => t0) s -> represents s q -> lowest_f e ->
  eventually (fun t => exists v, feval (denote defaults) (fun _ => t) s (retype_f t e) = Ok v) <-> fpossible q e.
Proof. exact c109_expression. Qed.
Print Assumptions C109_expression.

(** C109: likewise a program that finishes over the rationals. *)
Theorem C109_program : forall t0 fuel s q c, wf_store (fun _ => t0) s -> represents s q -> lowest_s c ->
  eventually (fun t => exists s', exec (denote defaults) (fun _ => t) fuel s (retype_s t c) = Some (Ok s')) <-> run_possible fuel q c.
Proof. exact c109_program. Qed.
Print Assumptions C109_program.

(** C109: so what is impossible is undefined behaviour in every type. *)
Theorem C109_impossible : forall t fuel s q c, wf_store (fun _ => t) s -> represents s q -> wf_s (fun _ => t) (retype_s t c) ->
  ~ run_possible fuel q c -> forall s', exec (denote defaults) (fun _ => t) fuel s (retype_s t c) <> Some (Ok s').
Proof. exact c109_impossible. Qed.
Print Assumptions C109_impossible.

(** C109: the result is the same in all of these types, part by part, and is what the
    program computes over the rationals. *)
Theorem C109_same : forall t u fuel s q c s1 s2, wf_store (fun _ => t) s -> wf_store (fun _ => u) s -> represents s q ->
  wf_s (fun _ => t) (retype_s t c) -> wf_s (fun _ => u) (retype_s u c) ->
  exec (denote defaults) (fun _ => t) fuel s (retype_s t c) = Some (Ok s1) ->
  exec (denote defaults) (fun _ => u) fuel s (retype_s u c) = Some (Ok s2) ->
  (forall x, s1 x = s2 x) /\ exists q', run fuel q c = Some q' /\ represents s1 q'.
Proof. exact c109_same. Qed.
Print Assumptions C109_same.

(** 2147483647 + x * x at x = 1/2 is possible; x % 0 and 0/0 + x are not, but 0/0 + 1 is. *)
Example c109_cases :
  let s := fun _ : nat => mkRaw 1 2 in
  let q := fun _ : nat => Some (1 # 2)%Q in
  let e := EBin Plus (ELit int32 (mkRaw 2147483647 1)) (EBin Multiplies (EVar 0) (EVar 0)) in
  let u := ELit int32 (mkRaw 0 0) in
  wf_store (fun _ => int32) s /\ represents s q /\ lowest_f e /\ fpossible q e /\
  (exists w, feval (denote defaults) (fun _ => int32) s (retype_f int32 e) = UB w) /\
  feval (denote defaults) (fun _ => int64) s (retype_f int64 e) = Ok (mkRaw 8589934589 4) /\
  ~ fpossible q (EBinInt Modulus (EVar 0) (IConst int32 0)) /\ ~ fpossible q (EBin Plus u (EVar 0)) /\
  fpossible q (EBinInt Plus u (IConst int32 1)) /\
  run_possible 3 q (SWhile (BCmp Gt (EVar 0) (EVar 1)) (SAssign 0 e)).
Proof.
  cbn zeta. split; [intros x; split; [split; [unfold wf_rep; cbn; lia|reflexivity]|split; [split; reflexivity|right; split; reflexivity]]|]. split; [intros x; vm_compute; reflexivity|].
  split; [split; [right; split; reflexivity|cbn; tauto]|]. split; [cbn; repeat split; auto; discriminate|].
  split; [eexists; vm_compute; reflexivity|]. split; [vm_compute; reflexivity|].
  split; [intros (_ & z & E & H); injection E as <-; now destruct (H eq_refl)|].
  split; [intros (_ & _ & [H|H]); discriminate|].
  split; [split; [exact I|]; exists 1; split; [reflexivity|discriminate]|].
  split; [cbn; auto|]. cbn. discriminate.
Qed.
