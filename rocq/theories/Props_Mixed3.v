(** Property theorems: mixed-number expressions with small values are defined.

    Each is closed by the lemma of the same name in Mixed3_claims.v. *)

From Coq Require Import ZArith QArith Qabs List Bool Lia.
From Verif Require Import Machine Raw Ops Spec Fraction Mixed Mixed_spec Defined_spec Mixed3_spec.
From Verif Require Import Machine_proofs Value_proofs Mixed_proofs Mixed3_proofs.
Import ListNotations.
Open Scope Z_scope.
From Verif Require Import Mixed3_claims.

(** C84: an expression over mixed numbers, every value of which has magnitude at most
    [W] and a denominator of at most [B], meets no undefined behaviour and gives the
    number it denotes in normal form. *)
Theorem C84_total : forall o B W e, output_canonical o = true -> 1 <= B <= W -> wf_mexpr e -> small_mexpr B W e ->
  exists m, meval (denote o) e = Ok m /\ normal_form m /\ same_value (mixed_value m) (mdenotes e).
Proof. exact c84_total. Qed.
Print Assumptions C84_total.

(** A billion and a third, plus two thirds, minus a half, plus 70 million: no fraction
    over int32 has the first value, the mixed numbers compute the sum. *)
Example C84_example :
  let e := MWholePlus int32 70000000 (MPlusFraction (MPlus (MMake int32 int32 1000000000 (mkRaw 1 3))
             (MMake int32 int32 0 (mkRaw 2 3))) int32 (mkRaw (-1) 2)) in
  wf_mexpr e /\ small_mexpr 10 1073741822 e /\
  meval (denote defaults) e = Ok (mkMixed 1070000000 (mkRaw 1 2)) /\
  (forall f q, wf_raw int32 f -> value f = Some q -> ~ (q == inject_Z 1000000000 + (1 # 3))%Q).
Proof.
  split; [|split; [|split]].
  - cbn. unfold signed_rep, wf_rep, wf_raw. cbn. repeat split; try reflexivity; cbn; discriminate.
  - small_closed.
  - vm_compute. reflexivity.
  - intros f q [N D] V E. apply in_rep_iff in N. apply in_rep_iff in D. cbn in N, D.
    destruct (Z.eq_dec (den f) 0) as [Z0|Z0]; [unfold value in V; rewrite Z0 in V; discriminate|].
    rewrite (value_defined f Z0) in V. injection V as <-.
    change (inject_Z 1000000000 + (1 # 3))%Q with (inject_Z 3000000001 / inject_Z 3)%Q in E.
    apply (proj1 (qdiv_eq (num f) (den f) 3000000001 3 Z0 ltac:(discriminate))) in E. lia.
Qed.

(** C84: a policy that returns lowest terms is needed. *)
Theorem C84_unreduced_refuted : exists e u, wf_mexpr e /\ small_mexpr 29 1000 e /\ meval (denote Safe) e = UB u.
Proof. exact c84_unreduced_refuted. Qed.
Print Assumptions C84_unreduced_refuted.
