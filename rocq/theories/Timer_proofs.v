(** Lemmas on sequences of steps. *)

From Coq Require Import ZArith QArith List Bool Lia Lqa Permutation.
From Verif Require Import Machine Raw Ops Spec Fraction Mixed_spec Chrono Chrono2 Chrono_spec Sums Sums_spec Timer Timer_spec.
From Verif Require Import Machine_proofs Value_proofs Ops_proofs Algebra_proofs Fraction_proofs Literals_proofs.
From Verif Require Import Chrono_proofs Chrono2_proofs Sums_proofs Sums_claims.
Import ListNotations.
Open Scope Z_scope.

Lemma do_step_exact : forall o t pl l s x, signed_rep t -> 64 <= rbits t -> wf_period pl -> wf_raw t l -> wf_step t s ->
  do_step (denote o) t pl l s = Some (Ok x) ->
  wf_raw t x /\ same_value (seconds (value x) pl) (step_seconds (seconds (value l) pl) s) /\
  (output_canonical o = true -> canonical x).
Proof.
  intros o t pl l s x SR B WP WL WS H. pose proof SR as [W S].
  destruct s as [op pd c|op f]; cbn [do_step step_seconds] in *.
  - destruct WS as (HO & WD & WC).
    split; [|split; [now apply (assign_exact o t op pl pd l c x)|]].
    all: unfold duration_assign in H;
      destruct (duration_cast (denote o) t pd pl c) as [v|] eqn:EB; [|discriminate];
      destruct v as [v|]; [|discriminate]; apply some_inj in H; cbn [bind] in H;
      assert (FR : factor_fits t pd pl) by (apply factor_fits_64; auto; intros N; unfold duration_cast in EB; rewrite N in EB; discriminate);
      destruct (duration_cast_exact o t pd pl c v SR WD WP WC FR EB) as [B1 B2];
      unfold f_assign in H; rewrite f_arith_self in H; rewrite conv_raw_id in H by auto.
    + apply (arith_wf o t op (RR l v) x W); auto. now split.
    + intros OC. apply (denote_canonical o t op (RR l v) x); auto. now split.
  - destruct WS as (HO & WF). apply some_inj in H. unfold f_assign in H. rewrite f_arith_self in H.
    rewrite conv_raw_id in H by auto.
    split; [apply (arith_wf o t op (RR l f) x W); auto; now split|]. split.
    + assert (X : same_value (value x) (exact_opt op (value l) (value f))).
      { apply (denote_exact_opt o t op (RR l f) x W S); auto; [now split|]. destruct HO as [-> |[-> D]]; [left; discriminate|right; right; exact D]. }
      eapply same_trans; [apply seconds_same; exact X|].
      destruct (value l) as [a|], (value f) as [b|]; cbn [seconds exact_opt]; try exact I; destruct HO as [-> |[-> D]]; cbn [exact]; try exact I.
      * cbn [seconds same_value]. ring.
      * destruct (Qeq_bool b 0) eqn:E; cbn [seconds same_value]; auto.
        assert (~ (b == 0)%Q) by (intros E'; apply Qeq_bool_iff in E'; congruence). field. auto.
    + intros OC. apply (denote_canonical o t op (RR l f) x); auto. now split.
Qed.

Lemma step_seconds_same : forall s s' x, same_value s s' -> same_value (step_seconds s x) (step_seconds s' x).
Proof. intros s s' [op pd c|op f] H; cbn [step_seconds]; now apply exact_opt_same. Qed.

Lemma all_seconds_same : forall xs s s', same_value s s' -> same_value (all_seconds s xs) (all_seconds s' xs).
Proof. induction xs as [|x xs IH]; intros s s' H; cbn; auto. apply IH. now apply step_seconds_same. Qed.

Theorem run_steps_exact : forall o t pl ss l x, signed_rep t -> 64 <= rbits t -> wf_period pl -> wf_raw t l ->
  Forall (wf_step t) ss -> run_steps (denote o) t pl l ss = Some (Ok x) ->
  wf_raw t x /\ same_value (seconds (value x) pl) (all_seconds (seconds (value l) pl) ss) /\
  (output_canonical o = true -> ss <> [] -> canonical x).
Proof.
  intros o t pl ss. induction ss as [|s ss IH]; intros l x SR B WP WL F H; cbn [run_steps] in H.
  - injection H as <-. split; auto. split; [apply same_refl|]. intros _ N. congruence.
  - inversion F; subst. destruct (do_step (denote o) t pl l s) as [[y|u]|] eqn:E; try discriminate.
    destruct (do_step_exact o t pl l s y SR B WP WL) as (WY & VY & CY); auto.
    destruct (IH y x SR B WP WY) as (WX & VX & CX); auto. split; auto. split.
    + eapply same_trans; [exact VX|]. cbn [all_seconds fold_left]. now apply all_seconds_same.
    + intros OC _. destruct ss; [|apply CX; auto; discriminate]. cbn in H. injection H as <-. auto.
Qed.

Lemma adds_total : forall xs s, Forall adds xs ->
  same_value (all_seconds (Some s) xs) (Some (s + total_added xs)%Q).
Proof.
  induction xs as [|x xs IH]; intros s F; cbn [all_seconds fold_left total_added map fold_right].
  - cbn. ring.
  - inversion F as [|y ys (pd & c & q & -> & C) F']; subst. cbn [step_seconds added]. rewrite C. cbn [seconds exact_opt exact].
    eapply same_trans; [apply IH; auto|]. cbn [same_value]. fold (total_added xs). ring.
Qed.

Lemma total_permutation : forall xs ys, Permutation xs ys -> (total_added xs == total_added ys)%Q.
Proof. intros xs ys P. unfold total_added. induction P; cbn [map fold_right]; [reflexivity|now rewrite IHP|ring|now rewrite IHP1]. Qed.

Lemma total_repeat : forall n x, (total_added (repeat x n) == inject_Z (Z.of_nat n) * added x)%Q.
Proof.
  intros n x. unfold total_added. induction n as [|n IH]; [cbn; ring|].
  cbn [repeat map fold_right]. rewrite IH, Nat2Z.inj_succ. unfold Z.succ. rewrite inject_Z_plus. ring.
Qed.

Lemma seconds_cancel : forall x y pl, wf_period pl -> same_value (seconds x pl) (seconds y pl) -> same_value x y.
Proof.
  intros [x|] [y|] pl WP H; cbn in *; auto. pose proof (period_pos pl WP) as PP.
  apply Qmult_inj_r in H; auto. intros E. rewrite E in PP. now apply (Qlt_irrefl 0).
Qed.

Theorem run_steps_order : forall o t pl l ss ss' x x', signed_rep t -> 64 <= rbits t -> wf_period pl -> wf_raw t l ->
  output_canonical o = true -> value l <> None -> Forall (wf_step t) ss -> Forall adds ss -> Permutation ss ss' ->
  run_steps (denote o) t pl l ss = Some (Ok x) -> run_steps (denote o) t pl l ss' = Some (Ok x') -> x = x'.
Proof.
  intros o t pl l ss ss' x x' SR B WP WL OC DL F A P R R'.
  assert (F' : Forall (wf_step t) ss') by (rewrite <- P; exact F).
  assert (A' : Forall adds ss') by (rewrite <- P; exact A).
  destruct ss as [|s ss0].
  { apply Permutation_nil in P. subst. congruence. }
  destruct ss' as [|s' ss0']; [symmetry in P; apply Permutation_nil in P; discriminate|].
  destruct (run_steps_exact o t pl _ l x SR B WP WL F R) as (_ & V & C).
  destruct (run_steps_exact o t pl _ l x' SR B WP WL F' R') as (_ & V' & C').
  apply canonical_unique; [apply C; auto; discriminate|apply C'; auto; discriminate|].
  apply (seconds_cancel _ _ pl WP). destruct (value l) as [q|]; [|congruence]. cbn [seconds] in V, V'.
  eapply same_trans; [exact V|]. eapply same_trans; [apply adds_total; auto|].
  eapply same_trans; [|apply same_sym; exact V']. eapply same_trans; [|apply same_sym, adds_total; auto].
  cbn [same_value]. now rewrite (total_permutation _ _ P).
Qed.

(** Adding is accumulating the converted counts. *)
Lemma run_adds : forall o t pl ss vs l, signed_rep t ->
  Forall2 (fun s v => exists pd c, s = Move Plus pd c /\ duration_cast (denote o) t pd pl c = Some (Ok v) /\ wf_raw t v) ss vs ->
  run_steps (denote o) t pl l ss = Some (accumulate (denote o) t Plus l vs).
Proof.
  intros o t pl ss vs l SR F. revert l. induction F as [|s v ss vs (pd & c & -> & E & WV) F IH]; intros l; [reflexivity|].
  cbn [run_steps do_step accumulate]. unfold duration_assign. rewrite E. cbn [bind]. unfold f_assign.
  rewrite conv_raw_id by (auto; apply SR). destruct (f_arith (denote o) t t Plus (RR l v)) as [y|u]; cbn [bind]; [apply IH|reflexivity].
Qed.

Theorem run_adds_total : forall o t pl ss vs ns l n D, built_on_safe o = true -> signed_rep t -> 0 < D <= rmax t ->
  Forall2 (fun s v => exists pd c, s = Move Plus pd c /\ duration_cast (denote o) t pd pl c = Some (Ok v) /\ wf_raw t v) ss vs ->
  over D n l -> Forall2 (over D) ns vs -> partial_sums_fit (rmax t) n ns ->
  exists x, run_steps (denote o) t pl l ss = Some (Ok x) /\
    same_value (value x) (Some (inject_Z (n + zsum ns) / inject_Z D)%Q).
Proof.
  intros o t pl ss vs ns l n D BS SR DD F OL FV PF. rewrite (run_adds o t pl ss vs l SR F).
  destruct (c70_accumulate o t D ns vs n l BS SR DD OL FV PF) as (r & R & _ & V). exists r. split; [now rewrite R|exact V].
Qed.
