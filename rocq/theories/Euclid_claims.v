(** Proofs of the statements in Props_Euclid.v. *)

From Coq Require Import ZArith QArith Bool Lia.
From Verif Require Import Machine Raw Ops Spec Fraction Mixed_spec Defined_spec Program Program_spec ProgDef_spec Euclid_spec.
From Verif Require Import Euclid_proofs.
Open Scope Z_scope.

Lemma c96_ends : forall o t s x y, output_canonical o = true -> wf_store (fun _ => t) s ->
  value (s 0%nat) = Some x -> value (s 1%nat) = Some y ->
  exists N, forall fuel, (N <= fuel)%nat -> exec (denote o) (fun _ => t) fuel s euclid <> None.
Proof.
  exact euclid_finishes.
Qed.

Lemma c96_result : forall o t s x y fuel s', output_canonical o = true -> wf_store (fun _ => t) s ->
  value (s 0%nat) = Some x -> value (s 1%nat) = Some y -> exec (denote o) (fun _ => t) fuel s euclid = Some (Ok s') ->
  exists g, value (s' 0%nat) = Some g /\ is_gcd x y g /\ s' 1%nat = mkRaw 0 1.
Proof.
  exact euclid_result.
Qed.

Lemma c96_defined : forall t s x y, wf_store (fun _ => t) s -> value (s 0%nat) = Some x -> value (s 1%nat) = Some y ->
  (exists fuel s', exec (denote defaults) (fun _ => t) fuel s euclid = Some (Ok s')) <-> euclid_fits (rmax t) x y.
Proof.
  exact euclid_exec_ok.
Qed.

