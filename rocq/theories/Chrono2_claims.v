(** Proofs of the statements in Props_Chrono2.v. *)

From Coq Require Import ZArith QArith Qabs List Bool Lia Lqa.
From Verif Require Import Machine Raw Ops Spec Fraction Mixed_spec Chrono Chrono_spec Chrono2 Chrono2_spec.
From Verif Require Import Machine_proofs Value_proofs Algebra_proofs Fmath_proofs Limits_proofs Literals_proofs Chrono_proofs Chrono2_proofs.
Import ListNotations.
Open Scope Z_scope.

Lemma c75_scale_exact : forall o t op c s r,
  signed_rep t -> wf_count t c -> wf_scalar t s ->
  op <> Divides \/ reduces_inputs o = true \/ scalar_value s <> None ->
  duration_scale (denote o) t op c s = Ok r ->
  same_value (value r) (exact_opt op (count_value c) (scalar_value s)).
Proof. intros. now apply (scale_exact o t op c s r). Qed.

Lemma c75_scale_seconds : forall o t op c s r pd,
  signed_rep t -> wf_count t c -> wf_scalar t s -> op = Multiplies \/ op = Divides -> scalar_value s <> None ->
  duration_scale (denote o) t op c s = Ok r ->
  same_value (seconds (value r) pd) (exact_opt op (seconds (count_value c) pd) (scalar_value s)).
Proof.
  intros o t op c s r pd SR WC WS HO D H.
  destruct (scale_exact o t op c s r) as [_ X]; auto. eapply same_trans; [apply seconds_same; exact X|].
  destruct (count_value c) as [q|], (scalar_value s) as [k|]; cbn [seconds exact_opt]; try exact I.
  destruct HO as [->| ->]; cbn [exact].
  - cbn [seconds same_value]. ring.
  - destruct (Qeq_bool k 0) eqn:E; cbn [seconds same_value]; auto. apply Qeq_bool_neq in E. field. auto.
Qed.

Lemma c75_ratio_exact : forall o t pl pr l r x,
  signed_rep t -> 64 <= rbits t -> wf_period pl -> wf_period pr -> wf_count t l -> wf_count t r ->
  reduces_inputs o = true \/ count_value r <> None ->
  duration_ratio (denote o) t pl pr l r = Some (Ok x) ->
  same_value (value x) (exact_opt Divides (seconds (count_value l) pl) (seconds (count_value r) pr)).
Proof. intros. now apply (ratio_exact o t pl pr l r x). Qed.

Lemma c75_remainder_exact : forall o t pl pr l r pc x,
  signed_rep t -> 64 <= rbits t -> wf_period pl -> wf_period pr -> wf_count t l -> wf_count t r ->
  duration_mod (denote o) t pl pr l r = Some (pc, Ok x) ->
  same_value (seconds (value x) pc) (exact_opt Modulus (seconds (count_value l) pl) (seconds (count_value r) pr)).
Proof. intros. now apply (mod_exact o t pl pr l r pc x). Qed.

Lemma c75_divide_multiply : forall o t pl pr l r x y sl sr,
  signed_rep t -> 64 <= rbits t -> wf_period pl -> wf_period pr -> wf_count t l -> wf_count t r ->
  seconds (count_value l) pl = Some sl -> seconds (count_value r) pr = Some sr -> ~ (sr == 0)%Q ->
  duration_ratio (denote o) t pl pr l r = Some (Ok x) -> wf_raw t x ->
  duration_scale (denote o) t Multiplies r (FracScalar x) = Ok y ->
  same_value (seconds (value y) pr) (Some sl).
Proof.
  intros o t pl pr l r x y sl sr SR L WL WR CL CR EL ER NZ HX WX HY.
  assert (DR : count_value r <> None) by (destruct (count_value r); discriminate).
  pose proof (ratio_exact o t pl pr l r x SR L WL WR CL CR (or_intror DR) HX) as X. rewrite EL, ER in X.
  cbn [exact_opt exact] in X. destruct (Qeq_bool sr 0) eqn:E; [apply Qeq_bool_iff in E; contradiction|].
  destruct (value x) as [vx|] eqn:VX; [|contradiction]. cbn [same_value] in X.
  destruct (scale_exact o t Multiplies r (FracScalar x) y) as [_ Y]; auto; [left; discriminate|].
  eapply same_trans; [apply seconds_same; exact Y|]. cbn [scalar_value]. rewrite VX.
  destruct (count_value r) as [q|]; [|now contradiction DR]. cbn [seconds] in ER. injection ER as ER.
  cbn [exact_opt exact seconds same_value]. rewrite X, <- ER. rewrite <- ER in NZ. field. repeat split; intros Z; apply NZ; rewrite Z; ring.
Qed.

Lemma c75_assign_exact : forall o t op pl pr l r x,
  signed_rep t -> 64 <= rbits t -> wf_period pl -> wf_period pr -> wf_raw t l -> wf_count t r ->
  op = Plus \/ op = Minus \/ op = Modulus ->
  duration_assign (denote o) t op pl pr l r = Some (Ok x) ->
  same_value (seconds (value x) pl) (exact_opt op (seconds (value l) pl) (seconds (count_value r) pr)).
Proof. intros. now apply (assign_exact o t op pl pr l r x). Qed.

Lemma c75_abs_exact : forall o t v r q,
  signed_rep t -> wf_raw t v -> built_on_safe o = true \/ normalises_inputs o = true -> value v = Some q ->
  duration_abs (denote o) t v = Ok r -> same_value (value r) (Some (Qabs q)).
Proof. intros. now apply (abs_exact o t v r q). Qed.

Lemma c75_floor_exact : forall o t from to c r q,
  signed_rep t -> 64 <= rbits t -> wf_period from -> wf_period to -> wf_count t c ->
  built_on_safe o = true \/ normalises_inputs o = true -> count_value c = Some q ->
  duration_floor (denote o) t from to c = Some (Ok r) \/ duration_ceil (denote o) t from to c = Some (Ok r) ->
  same_value (seconds (value r) to) (seconds (Some q) from).
Proof.
  intros o t from to c r q SR L A B C HO V H. rewrite <- V.
  pose proof (floor_is_cast o t from to c r q SR L A B C HO V H) as K.
  apply (duration_cast_exact o t from to c r); auto. apply factor_fits_64; auto.
  intros N. unfold duration_cast in K. rewrite N in K. discriminate.
Qed.

