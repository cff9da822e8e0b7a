(** Proofs of the statements in Props_ProgDef.v. *)

From Coq Require Import ZArith QArith Qreduction Bool Lia.
From Verif Require Import Machine Raw Ops Spec Fraction Fmath Mixed_spec Defined_spec Program Program_spec ProgDef_spec.
From Verif Require Import Machine_proofs Value_proofs Program_proofs ProgDef_proofs.
Open Scope Z_scope.

Lemma c93_expression : forall ty s q e, wf_store ty s -> represents s q -> wf_f ty e ->
  (exists v, feval (denote defaults) ty s e = Ok v) <-> fdefined ty q e.
Proof.
  exact feval_ok.
Qed.

Lemma c93_condition : forall ty s q b, wf_store ty s -> represents s q -> wf_b ty b ->
  (exists v, beval (denote defaults) ty s b = Ok v) <-> bdefined ty q b.
Proof.
  exact beval_ok.
Qed.

Lemma c93_program : forall ty fuel s q c, wf_store ty s -> represents s q -> wf_s ty c ->
  (exists s', exec (denote defaults) ty fuel s c = Some (Ok s')) <-> run_defined ty fuel q c.
Proof.
  exact exec_ok.
Qed.

Lemma is_ok_exists : forall m : option (res store), match m with Some (Ok _) => true | _ => false end = true ->
  exists s', m = Some (Ok s').
Proof.
  intros [[s|u]|] H; try discriminate. now exists s.
Qed.

Lemma c93_operator : forall t op x y a b, signed_rep t ->
  wf_raw t x -> wf_raw t y -> canonical x -> canonical y ->
  same_value (value x) a -> same_value (value y) b ->
  (exists r, p_arith (denote defaults) t op (RR x y) = Ok r) <-> arith_defined (rmax t) op a b.
Proof.
  intros t op x y a b S WX WY CX CY VX VY. apply rr_step; auto; split; auto.
Qed.

