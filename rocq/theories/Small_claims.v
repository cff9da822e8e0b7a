(** Proofs of the statements in Props_Small.v. *)

From Coq Require Import ZArith QArith Lia Lqa List Bool.
From Verif Require Import Machine Raw Ops Spec Fraction Fmath Fmath_spec Limits Limits2 Mixed Mixed_spec Chrono Chrono_spec Chrono2.
From Verif Require Import Machine_proofs Value_proofs Ops_proofs Algebra_proofs Fmath_claims Limits_claims Fmath_proofs Limits_proofs Literals_proofs Chrono_proofs Limits2_proofs Chrono3_proofs.
Import ListNotations.
Open Scope Z_scope.

Lemma c06_unary_operators : forall o t v r, signed_rep t -> wf_raw t v -> f_negate (denote o) t v = Ok r ->
  same_value (value r) (opp_opt (value v)) /\ f_posate v = v.
Proof. intros o t v r [W S] WV H. split; [now apply (denote_negate o t v r)|reflexivity]. Qed.

Lemma c27_to_whole : forall o t v m k, signed_rep t -> wf_raw t v ->
  built_on_safe o = true \/ normalises_inputs o = true \/ 0 < den v ->
  f_to_whole (denote o) t v m = Ok k ->
  exists q, value v = Some q /\
    (~ tiny_negative q -> match m with
       | round_trunc => is_trunc k q
       | round_ceil => is_ceil k q
       | round_floor => is_floor k q
       | round_round => is_round k q
       end).
Proof.
  intros o t v m k [W S] WV C H. destruct m; cbn [f_to_whole] in H.
  - destruct (c27_trunc_toward_zero t v k W WV H) as [q [V T]]. eauto.
  - destruct (c29_ceil_partial t v k W WV H) as [q [V [T _]]]. eauto.
  - destruct (c28_floor_partial t v k W WV H) as [q [V [T _]]]. eauto.
  - destruct (c30_round_partial o t v k W S WV C H) as [q [V [T _]]]. exists q. split; auto. intros N. apply T.
    intros B. apply N. unfold tiny_negative, below_minus_half in *. destruct B as [B1 B2]. split; auto. lra.
Qed.

Lemma c42_default : normal_form mixed_default /\ same_value (mixed_value mixed_default) (Some 0%Q) /\
  forall m, mixed_posate m = m.
Proof.
  assert (V : value f_default = Some (0 / 1)%Q) by reflexivity.
  split; [|split; [reflexivity|reflexivity]].
  exists (0 / 1)%Q. split; [exact V|]. split; [split; reflexivity|]. split; intros H; cbn in H; try lia; try discriminate.
Qed.

Lemma c49_numeric_limits_partial : forall t v q, wf_rep t -> wf_raw t v -> value v = Some q ->
  wf_raw t (nl_lowest t) /\ wf_raw t (nl_min t) /\ wf_raw t (nl_max t) /\
  (exists m, value (nl_lowest t) = Some m /\ (m <= q)%Q) /\
  (exists m, value (nl_min t) = Some m /\ (m <= q)%Q) /\
  (~ (rsigned t = true /\ v = mkRaw (rmin t) (-1)) -> exists m, value (nl_max t) = Some m /\ (q <= m)%Q).
Proof.
  intros t v q W A V. pose proof (c49_limits_are_values t W) as [L1 [L2 _]].
  assert (K : exists m, value (limits_min t) = Some m /\ (m <= q)%Q).
  { destruct (int_value (rmin t)) as [m [E M]]. exists m. split; auto. rewrite M. exact (limits_lower t v q W A V). }
  split; [exact L1|]. split; [exact L1|]. split; [exact L2|]. split; [exact K|]. split; [exact K|].
  intros N. destruct (int_value (rmax t)) as [m [E M]]. exists m. split; auto. rewrite M. exact (limits_upper t v q W A V N).
Qed.

Lemma c76_is_integer : forall t, wf_rep t ->
  (nl_is_integer = true <-> forall v q, wf_raw t v -> value v = Some q -> exists z, (q == inject_Z z)%Q).
Proof.
  intros t W. split; [discriminate|]. intros H. exfalso. pose proof (rmax_big t W).
  assert (I : forall z, 0 <= z <= 2 -> in_rep t z = true) by (intros z Hz; apply in_rep_iff; pose proof (rmin_nonpos t W); lia).
  destruct (H (mkRaw 1 2) (1 / 2)%Q) as [z E]; [split; apply I; cbn; lia|reflexivity|].
  unfold Qeq in E. cbn in E. lia.
Qed.

Lemma c76_constants : nl_is_specialized = true /\ nl_has_infinity = false /\ nl_has_signaling_NaN = false /\ nl_is_iec559 = false /\
  forall f, In f [nl_infinity; nl_denorm_min; nl_signaling_NaN; nl_round_error] -> same_value (value f) (Some 0%Q).
Proof. repeat split. intros f H. cbn in H. destruct H as [<-|[<-|[<-|[<-|[]]]]]; reflexivity. Qed.

Lemma c63_time_points : forall o t pl pr l r pc x, signed_rep t -> 64 <= rbits t -> wf_period pl -> wf_period pr ->
  wf_count t l -> wf_count t r ->
  (time_point_plus (denote o) t pl pr l r = Some (pc, Ok x) ->
   same_value (seconds (value x) pc) (exact_opt Plus (seconds (count_value l) pl) (seconds (count_value r) pr))) /\
  (time_point_minus (denote o) t pl pr l r = Some (pc, Ok x) ->
   same_value (seconds (value x) pc) (exact_opt Minus (seconds (count_value l) pl) (seconds (count_value r) pr))) /\
  (time_point_difference (denote o) t pl pr l r = Some (pc, Ok x) ->
   same_value (seconds (value x) pc) (exact_opt Minus (seconds (count_value l) pl) (seconds (count_value r) pr))).
Proof.
  intros o t pl pr l r pc x SR L WL WR CL CR. repeat split; intros H;
    (eapply duration_arith_exact; [exact SR|exact WL|exact WR|exact CL|exact CR| |exact L|exact H]; tauto).
Qed.

Lemma c75_negate_exact : forall o t v r pd, signed_rep t -> wf_raw t v -> duration_negate (denote o) t v = Ok r ->
  same_value (seconds (value r) pd) (opp_opt (seconds (value v) pd)).
Proof.
  intros o t v r pd [W S] WV H. pose proof (denote_negate o t v r W S WV H) as X.
  destruct (value v) as [a|], (value r) as [b|]; cbn in *; auto. rewrite X. ring.
Qed.

Lemma c77_named_policies :
  map (fun o => (built_on_safe o, reduces_inputs o, output_canonical o, normalises_inputs o))
    [Safe; safe_reduced_i; safe_reduced_o; safe_reduced_io; Fast; fast_reduced_i; fast_reduced_o; fast_reduced_io; defaults] =
  [(true, false, false, false); (true, true, false, false); (true, false, true, false); (true, true, true, false);
   (false, false, false, false); (false, true, false, false); (false, false, true, false); (false, true, true, false);
   (true, true, true, false)].
Proof. reflexivity. Qed.

