(** Property theorems: Stacks of policies.

    Each is closed by the lemma of the same name in Stack_claims.v. *)

From Coq Require Import ZArith List Bool Lia.
From Verif Require Import Machine Raw Ops Spec Fraction Program Stack_spec.
From Verif Require Import Stack_proofs.
Import ListNotations.
Open Scope Z_scope.
From Verif Require Import Stack_claims.

(** C97: however many reduced_input and reduced_output layers are stacked, and in
    whatever order, every operator behaves as under one of eighteen policies: safe or
    fast, with at most one layer of each kind.  The outcomes are identical for all
    operands of all representations, undefined behaviour included. *)
Theorem C97_collapse : forall o, exists b i u, same_policy o (one_of_18 b i u).
Proof. exact c97_collapse. Qed.
Print Assumptions C97_collapse.

Example c97_collapse_nonvacuous :
  p_arith (denote (ReducedOutput (ReducedInput (ReducedOutput (ReducedInput Fast ignore_signs_mode) normalize_signs_mode) normalize_signs_mode) ignore_signs_mode))
    int32 Multiplies (RR (mkRaw 6 (-4)) (mkRaw 5 9)) = Ok (mkRaw (-5) 6) /\
  p_arith (denote (one_of_18 false Normalising Normalising)) int32 Multiplies (RR (mkRaw 6 (-4)) (mkRaw 5 9)) = Ok (mkRaw (-5) 6).
Proof. vm_compute. auto. Qed.

(** C97: two policies can be told apart by their results exactly if they have a
    different policy at the bottom, or their input layers, or their output layers,
    differ in being absent, all keeping signs, or one of them normalising signs.  So
    repeating a layer, or changing the order of the layers, is never visible. *)
Theorem C97_same : forall o o', indistinguishable o o' <->
  bottom o = bottom o' /\ effect (input_modes o) = effect (input_modes o') /\ effect (output_modes o) = effect (output_modes o').
Proof. exact c97_same. Qed.
Print Assumptions C97_same.

Example c97_same_nonvacuous :
  indistinguishable (ReducedOutput (ReducedInput Safe ignore_signs_mode) normalize_signs_mode) defaults /\
  ~ indistinguishable (ReducedInput (ReducedOutput Safe normalize_signs_mode) normalize_signs_mode) defaults /\
  ~ indistinguishable safe_reduced_o defaults /\ ~ indistinguishable fast_reduced_io defaults.
Proof.
  repeat split; try (intros H; apply policy_iff in H; destruct H as (A & B & C); cbn in A, B, C; discriminate).
  all: apply (proj2 (policy_iff (ReducedOutput (ReducedInput Safe ignore_signs_mode) normalize_signs_mode) defaults)); auto.
Qed.

(** C97: the eighteen are pairwise different. *)
Theorem C97_eighteen : forall b i u b' i' u', indistinguishable (one_of_18 b i u) (one_of_18 b' i' u') -> b = b' /\ i = i' /\ u = u'.
Proof. exact c97_eighteen. Qed.
Print Assumptions C97_eighteen.

Example c97_eighteen_nonvacuous :
  p_cmp (denote (one_of_18 true Keeping Normalising)) int32 Lt (RI (mkRaw 1 (-2)) 1) = Ok false /\
  p_cmp (denote (one_of_18 true Normalising Normalising)) int32 Lt (RI (mkRaw 1 (-2)) 1) = Ok true.
Proof. vm_compute. auto. Qed.

(** C97: and no program tells indistinguishable policies apart, whatever the
    representations of its variables, whatever they hold and however many steps it
    runs: it ends in the same memory, or meets the same undefined behaviour. *)
Theorem C97_programs : forall o o' ty fuel s c, bottom o = bottom o' ->
  effect (input_modes o) = effect (input_modes o') -> effect (output_modes o) = effect (output_modes o') ->
  plain_store ty s -> plain_s c -> exec (denote o) ty fuel s c = exec (denote o') ty fuel s c.
Proof. exact c97_programs. Qed.
Print Assumptions C97_programs.

Example c97_programs_nonvacuous :
  let ty := fun x : nat => match x with O => uint32 | _ => int64 end in
  let s := fun x : nat => match x with O => mkRaw 4000000000 7 | _ => mkRaw (-6) 4 end in
  let c := SWhile (BCmpInt Lt (EVar 1%nat) (IConst int32 5)) (SSeq (SOpAssign Plus 1%nat (ELit int32 (mkRaw 5 3))) (SAssign 0%nat (EBin Minus (EVar 0%nat) (EVar 1%nat)))) in
  plain_store ty s /\ plain_s c /\
  exec (denote (ReducedOutput (ReducedInput Safe ignore_signs_mode) normalize_signs_mode)) ty 20 s c <> None.
Proof.
  cbv zeta. split; [|split].
  - intros [|x]; repeat split; vm_compute; discriminate.
  - cbn. repeat split; vm_compute; congruence.
  - vm_compute. discriminate.
Qed.
