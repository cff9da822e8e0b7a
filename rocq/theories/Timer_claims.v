(** Proofs of the statements in Props_Timer.v. *)

From Coq Require Import ZArith QArith List Bool Lia Lqa Permutation.
From Verif Require Import Machine Raw Ops Spec Fraction Mixed_spec Chrono Chrono2 Chrono_spec Sums_spec Timer Timer_spec.
From Verif Require Import Machine_proofs Value_proofs Algebra_proofs Literals_proofs Chrono_proofs Timer_proofs.
Import ListNotations.
Open Scope Z_scope.

Lemma c103_exact : forall o t pl l ss x,
  signed_rep t -> 64 <= rbits t -> wf_period pl -> wf_raw t l -> Forall (wf_step t) ss ->
  run_steps (denote o) t pl l ss = Some (Ok x) ->
  same_value (seconds (value x) pl) (all_seconds (seconds (value l) pl) ss) /\
  (output_canonical o = true -> ss <> [] -> canonical x).
Proof. intros o t pl l ss x SR B WP WL F H. now apply (run_steps_exact o t pl ss l x). Qed.

Lemma c103_order : forall o t pl l ss ss' x x',
  signed_rep t -> 64 <= rbits t -> wf_period pl -> wf_raw t l -> value l <> None -> output_canonical o = true ->
  Forall (wf_step t) ss -> Forall adds ss -> Permutation ss ss' ->
  run_steps (denote o) t pl l ss = Some (Ok x) -> run_steps (denote o) t pl l ss' = Some (Ok x') -> x = x'.
Proof. intros. now apply (run_steps_order o t pl l ss ss' x x'). Qed.

Lemma c103_sum : forall o t pl l ss x q,
  signed_rep t -> 64 <= rbits t -> wf_period pl -> wf_raw t l -> value l = Some q ->
  Forall (wf_step t) ss -> Forall adds ss ->
  run_steps (denote o) t pl l ss = Some (Ok x) ->
  same_value (seconds (value x) pl) (Some (q * period_value pl + total_added ss)%Q).
Proof.
  intros o t pl l ss x q SR B WP WL VL F A H.
  destruct (run_steps_exact o t pl ss l x SR B WP WL F H) as (_ & V & _). rewrite VL in V. cbn [seconds] in V.
  eapply same_trans; [exact V|now apply adds_total].
Qed.

Lemma c103_ticks : forall o t pl l pd c n x q k,
  signed_rep t -> 64 <= rbits t -> wf_period pl -> wf_raw t l -> value l = Some q ->
  wf_period pd -> wf_count t c -> count_value c = Some k ->
  run_steps (denote o) t pl l (repeat (Move Plus pd c) n) = Some (Ok x) ->
  same_value (seconds (value x) pl) (Some (q * period_value pl + inject_Z (Z.of_nat n) * (k * period_value pd))%Q).
Proof.
  intros o t pl l pd c n x q k SR B WP WL VL WD WC C H.
  eapply same_trans.
  - apply (c103_sum o t pl l (repeat (Move Plus pd c) n) x q); auto.
    + apply Forall_forall. intros y Y. apply repeat_spec in Y. subst. repeat split; auto; apply WD.
    + apply Forall_forall. intros y Y. apply repeat_spec in Y. subst. now exists pd, c, k.
  - cbn [same_value]. rewrite total_repeat. cbn [added]. rewrite C. reflexivity.
Qed.

Lemma c103_total : forall o t pl ss vs ns l n D,
  built_on_safe o = true -> signed_rep t -> 0 < D <= rmax t ->
  Forall2 (fun s v => exists pd c, s = Move Plus pd c /\ duration_cast (denote o) t pd pl c = Some (Ok v) /\ wf_raw t v) ss vs ->
  over D n l -> Forall2 (over D) ns vs -> partial_sums_fit (rmax t) n ns ->
  exists x, run_steps (denote o) t pl l ss = Some (Ok x) /\
    same_value (value x) (Some (inject_Z (n + zsum ns) / inject_Z D)%Q).
Proof. intros. now apply (run_adds_total o t pl ss vs ns l n D). Qed.

Lemma c103_clock : forall o t pl pd c v k D n,
  built_on_safe o = true -> signed_rep t -> 0 < D <= rmax t ->
  duration_cast (denote o) t pd pl c = Some (Ok v) -> wf_raw t v -> over D k v -> Z.of_nat (S n) * Z.abs k <= rmax t ->
  exists x, run_steps (denote o) t pl (mkRaw 0 1) (repeat (Move Plus pd c) (S n)) = Some (Ok x) /\
    same_value (value x) (Some (inject_Z (Z.of_nat (S n) * k) / inject_Z D)%Q).
Proof.
  intros o t pl pd c v k D n BS SR DD E WV OV F.
  assert (Z0 : forall m, zsum (repeat k m) = Z.of_nat m * k).
  { induction m; [reflexivity|]. cbn [repeat zsum fold_right]. fold (zsum (repeat k m)). rewrite IHm. lia. }
  assert (PS : forall m a, Z.abs k <= rmax t -> Z.abs a + Z.of_nat m * Z.abs k <= rmax t -> partial_sums_fit (rmax t) a (repeat k m)).
  { induction m; intros a K A; cbn [repeat partial_sums_fit]; [split; auto; lia|].
    split; [lia|]. split; [lia|]. apply IHm; auto. lia. }
  destruct (run_adds_total o t pl (repeat (Move Plus pd c) (S n)) (repeat v (S n)) (repeat k (S n)) (mkRaw 0 1) 0 D) as (x & R & V); auto.
  - clear PS F. generalize (S n). intros m. induction m; cbn [repeat]; constructor; auto. now exists pd, c.
  - split; [cbn; lia|]. exists D. cbn [den num]. lia.
  - clear PS F. generalize (S n). intros m. induction m; cbn [repeat]; constructor; auto.
  - apply PS; nia.
  - exists x. split; auto. rewrite Z0 in V. exact V.
Qed.

