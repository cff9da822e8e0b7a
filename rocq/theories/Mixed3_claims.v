(** Proofs of the statements in Props_Mixed3.v. *)

From Coq Require Import ZArith QArith Qabs List Bool Lia.
From Verif Require Import Machine Raw Ops Spec Fraction Mixed Mixed_spec Defined_spec Mixed3_spec.
From Verif Require Import Machine_proofs Value_proofs Mixed_proofs Mixed3_proofs.
Import ListNotations.
Open Scope Z_scope.

Lemma c84_total : forall o B W e, output_canonical o = true -> 1 <= B <= W -> wf_mexpr e -> small_mexpr B W e ->
  exists m, meval (denote o) e = Ok m /\ normal_form m /\ same_value (mixed_value m) (mdenotes e).
Proof.
  intros o B W e OC HB WE S. destruct (meval_small o B W e OC HB WE S) as [m [H _]].
  destruct (meval_exact o e m WE H) as [_ [N X]]. eauto.
Qed.

Lemma c84_unreduced_refuted : exists e u, wf_mexpr e /\ small_mexpr 29 1000 e /\ meval (denote Safe) e = UB u.
Proof.
  exists (fold_left (fun e p => MPlusFraction (MPlusFraction e int32 (mkRaw 1 p)) int32 (mkRaw (-1) p))
            [2; 3; 5; 7; 11; 13; 17; 19; 23; 29] (MOfFraction int32 (mkRaw 0 1))), LibPrecond.
  cbn [fold_left]. split; [|split].
  - cbn. unfold signed_rep, wf_rep, wf_raw. cbn. repeat split; try reflexivity; cbn; discriminate.
  - small_closed.
  - vm_compute. reflexivity.
Qed.

