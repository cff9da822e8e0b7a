(** Which policies run every program faithfully. *)

From Coq Require Import ZArith QArith Bool Lia.
From Verif Require Import Machine Raw Ops Fraction Spec Mixed_spec Program Program_spec Program2_spec.
From Verif Require Import Machine_proofs Value_proofs Ops_proofs Program_proofs Program3_proofs.
Open Scope Z_scope.

Lemma normalises_reduces : forall o, normalises_inputs o = true -> reduces_inputs o = true.
Proof. induction o as [| |o IH m|o IH m]; cbn; auto. Qed.

Lemma opaque_of : forall ty i, wf_i ty i -> no_parts_i i -> opaque_i i.
Proof. intros ty [] W N; cbn in *; auto. Qed.

Lemma suits_f_of : forall o ty e, normalises_inputs o = true -> wf_f ty e -> no_parts_f e -> suits_f o false ty e.
Proof.
  intros o ty e O. pose proof (normalises_reduces o O) as O'.
  assert (A : forall op, arith_suits o false op) by (intros op; right; auto).
  induction e; cbn; intros W N; auto.
  - unfold sign_ok. intuition discriminate.
  - eapply opaque_of; eauto.
  - intuition.
  - destruct W, N. split; [|split]; auto. eapply opaque_of; eauto.
  - destruct W, N. split; [|split]; auto. eapply opaque_of; eauto.
Qed.

Lemma suits_b_of : forall o ty b, normalises_inputs o = true -> wf_b ty b -> no_parts_b b -> suits_b o false ty b.
Proof.
  intros o ty b O. induction b; cbn; intros W N; auto.
  - destruct W, N. split; [intros _; auto|]. split; apply suits_f_of; auto.
  - destruct W, N. split; [intros _; auto|]. split; [apply suits_f_of; auto|eapply opaque_of; eauto].
  - destruct W, N. split; [intros _; auto|]. split; [eapply opaque_of; eauto|apply suits_f_of; auto].
  - tauto.
  - tauto.
Qed.

Lemma suits_of : forall o ty c, normalises_inputs o = true -> wf_s ty c -> no_parts c -> suits o false ty c.
Proof.
  intros o ty c O. pose proof (normalises_reduces o O) as O'.
  assert (A : forall op, arith_suits o false op) by (intros op; right; auto).
  induction c; cbn; intros W N; auto; try tauto.
  - destruct W. split; auto. apply suits_f_of; auto.
  - destruct W. split; auto. split; auto. apply suits_f_of; auto.
  - destruct W. split; auto. split; auto. eapply opaque_of; eauto.
  - destruct W as [W1 [W2 W3]], N as [N1 [N2 N3]]. split; [apply suits_b_of; auto|]. auto.
  - destruct W as [W1 W2], N as [N1 N2]. split; [apply suits_b_of; auto|]. auto.
Qed.

(** The witness: x = 1 / (-2/1); if (x < 0) y = 1; else y = 0; *)
Definition sign_program : stmt :=
  SSeq (SAssign 0 (EIntBin Divides (IConst int64 1) (ELit int64 (mkRaw (-2) 1))))
       (SIf (BCmpInt Lt (EVar 0) (IConst int64 0))
            (SAssign 1 (EOfInt (IConst int64 1))) (SAssign 1 (EOfInt (IConst int64 0)))).

Lemma witness_divide : forall o, output_canonical o = false ->
  p_arith (denote o) int64 Divides (IR 1 (mkRaw (-2) 1)) = Ok (mkRaw 1 (-2)).
Proof.
  induction o as [| |o IH m|o IH m]; intros C; cbn [output_canonical denote] in *; try reflexivity.
  - rewrite ri_arith_eq. destruct m; cbn [reduce_args];
      (replace (reduce int64 (mkRaw (-2) 1) _) with (Ok (mkRaw (-2) 1)) by (vm_compute; reflexivity));
      exact (IH C).
  - destruct m; [discriminate|]. rewrite ro_arith_eq, (IH C). vm_compute. reflexivity.
Qed.

Lemma witness_cmp : forall o, normalises_inputs o = false ->
  p_cmp (denote o) int64 Lt (RI (mkRaw 1 (-2)) 0) = Ok false.
Proof.
  induction o as [| |o IH m|o IH m]; intros C; cbn [normalises_inputs denote] in *; try reflexivity.
  - destruct m; [discriminate|]. rewrite ri_cmp_eq. cbn [reduce_args].
    replace (reduce int64 (mkRaw 1 (-2)) _) with (Ok (mkRaw 1 (-2))) by (vm_compute; reflexivity).
    exact (IH C).
  - rewrite ro_cmp_eq. exact (IH C).
Qed.

Lemma not_faithful : forall o, output_canonical o = false -> normalises_inputs o = false -> ~ faithful o.
Proof.
  intros o C N H.
  assert (X : exec (denote o) (fun _ => int64) 3 (fun _ => mkRaw 0 1) sign_program =
    Some (Ok (write (write (fun _ => mkRaw 0 1) 0 (mkRaw 1 (-2))) 1 (mkRaw 0 1)))).
  { unfold sign_program. cbn [exec feval beval ieval ftype itype bind].
    unfold f_arith, f_cmp, common_args.
    replace (common_rep int64 int64) with int64 by reflexivity.
    replace (conv_int int64 int64 1) with 1 by (vm_compute; reflexivity).
    replace (conv_raw int64 int64 (mkRaw (-2) 1)) with (mkRaw (-2) 1) by (vm_compute; reflexivity).
    rewrite (witness_divide o C). cbn [bind].
    replace (f_convert int64 int64 (mkRaw 1 (-2))) with (mkRaw 1 (-2)) by (vm_compute; reflexivity).
    change (write (fun _ : nat => mkRaw 0 1) 0 (mkRaw 1 (-2)) 0%nat) with (mkRaw 1 (-2)).
    replace (conv_int int64 int64 0) with 0 by (vm_compute; reflexivity).
    replace (conv_raw int64 int64 (mkRaw 1 (-2))) with (mkRaw 1 (-2)) by (vm_compute; reflexivity).
    rewrite (witness_cmp o N). cbn [bind].
    replace (f_convert int64 int64 (f_of_int 0)) with (mkRaw 0 1) by (vm_compute; reflexivity).
    reflexivity. }
  assert (K : exists q', run 3 (fun _ => Some 0%Q) sign_program = Some q' /\
    represents (write (write (fun _ => mkRaw 0 1) 0 (mkRaw 1 (-2))) 1 (mkRaw 0 1)) q').
  { eapply H; [| | | |exact X].
    - intros x. split; [split; [unfold wf_rep; cbn; lia|reflexivity]|]. split; [split; reflexivity|].
      right. cbn. split; [lia|reflexivity].
    - intros x. reflexivity.
    - cbn. unfold signed_rep, wf_rep, wf_raw, canonical; cbn. repeat split; try lia; try reflexivity; try (right; split; [lia|reflexivity]).
    - cbn. tauto. }
  destruct K as [q' [E R]]. specialize (R 1%nat).
  assert (Y : same_value (q' 1%nat) (Some 1%Q)).
  { vm_compute in E. inversion E. vm_compute. reflexivity. }
  rewrite Y in R. vm_compute in R. discriminate.
Qed.

Theorem faithful_iff : forall o, faithful o <-> output_canonical o = true \/ normalises_inputs o = true.
Proof.
  intros o. split.
  - intros H. destruct (output_canonical o) eqn:C; auto. destruct (normalises_inputs o) eqn:N; auto.
    exfalso. exact (not_faithful o C N H).
  - intros [C|N] ty fuel s q c s' W R F P H.
    + pose proof (exec_sim o ty fuel s q c C W R F) as M. rewrite H in M.
      destruct M as [q' [E [M _]]]. eauto.
    + assert (W' : any_store false ty s) by (intros x; destruct (W x) as [A [B _]]; split; auto; split; auto; discriminate).
      pose proof (exec_any o false ty fuel s q c W' R (suits_of o ty c N F P)) as M. rewrite H in M.
      destruct M as [q' [E [M _]]]. eauto.
Qed.
