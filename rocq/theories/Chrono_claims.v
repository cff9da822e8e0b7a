(** Proofs of the statements in Props_Chrono.v. *)

From Coq Require Import ZArith QArith List Bool Lia Lqa.
From Verif Require Import Machine Raw Ops Spec Fraction Mixed_spec Chrono Chrono_spec.
From Verif Require Import Machine_proofs Value_proofs Fmath_proofs Limits_proofs Literals_proofs Chrono_proofs.
Import ListNotations.
Open Scope Z_scope.

Lemma c54_conversion_exact_partial : forall o t from to c r,
  signed_rep t -> wf_period from -> wf_period to -> wf_count t c -> factor_fits t from to ->
  duration_cast (denote o) t from to c = Some (Ok r) ->
  same_value (seconds (value r) to) (seconds (count_value c) from).
Proof. intros o t from to c r S A B C F H. now apply (duration_cast_exact o t from to c r). Qed.

Lemma c54_wide_conversion_exact : forall o t from to c r,
  signed_rep t -> 64 <= rbits t -> wf_period from -> wf_period to -> wf_count t c ->
  duration_cast (denote o) t from to c = Some (Ok r) ->
  same_value (seconds (value r) to) (seconds (count_value c) from).
Proof.
  intros o t from to c r S L A B C H. apply (duration_cast_exact o t from to c r); auto.
  apply factor_fits_64; auto. intros N. unfold duration_cast in H. rewrite N in H. discriminate.
Qed.

Lemma c54_conversion_total : forall o t from to s z n d,
  signed_rep t -> wf_period from -> wf_period to -> in_rep s z = true ->
  0 < n -> 0 < d -> Z.gcd n d = 1 ->
  (inject_Z n / inject_Z d == period_value from / period_value to)%Q ->
  n <= rmax int64 -> d <= rmax int64 -> n <= rmax t -> d <= rmax t -> Z.abs (z * n) <= rmax t ->
  exists r, duration_cast (denote o) t from to (IntCount s z) = Some (Ok r) /\
    same_value (seconds (value r) to) (seconds (Some (inject_Z z)) from).
Proof.
  intros o t from to s z n d S A B I N D G E N64 D64 NT DT ZN.
  destruct (duration_cast_total o t from to s z n d) as [r H]; auto. exists r. split; auto.
  assert (Z.abs z <= rmax t) by (rewrite Z.abs_mul, (Z.abs_eq n) in ZN by lia; nia).
  apply (duration_cast_exact o t from to (IntCount s z) r); auto.
  - split; auto. now apply Tight_proofs.abs_fits.
  - intros n' d' N' D' G' E'.
    assert (EQ : mkRaw n d = mkRaw n' d').
    { apply canonical_unique.
      - right. cbn. auto.
      - right. cbn. auto.
      - rewrite !value_defined by (cbn; lia). cbn [num den same_value]. now rewrite E, E'. }
    inversion EQ; subst. auto.
Qed.

Lemma c54_to_fractional_keeps_count : forall o t pd z,
  signed_rep t -> wf_period pd -> in_rep t z = true ->
  to_fractional (denote o) t pd z = Some (Ok (mkRaw z 1)).
Proof. exact to_fractional_count. Qed.

Lemma c54_clock_now : forall o t clock_period pd ticks r,
  signed_rep t -> 64 <= rbits t -> wf_period clock_period -> wf_period pd -> in_rep t ticks = true ->
  clock_wrapper_now (denote o) t clock_period pd ticks = Some (Ok r) ->
  same_value (seconds (value r) pd) (seconds (Some (inject_Z ticks)) clock_period).
Proof.
  intros o t cp pd ticks r S L A B I H. apply (c54_wide_conversion_exact o t cp pd (IntCount t ticks) r); auto.
  split; auto.
Qed.

Lemma c54_narrow_refuted : exists from to c r,
  wf_period from /\ wf_period to /\ wf_count int32 c /\
  duration_cast (denote defaults) int32 from to c = Some (Ok r) /\
  ~ same_value (seconds (value r) to) (seconds (count_value c) from).
Proof.
  exists (mkPeriod 1 1), (mkPeriod 1 10000000000), (IntCount int32 1), (mkRaw 1410065408 1).
  unfold wf_period. repeat split; try reflexivity.
  cbn. intros E. vm_compute in E. discriminate.
Qed.

Lemma c63_sum_exact : forall o t op pl pr l r pc x,
  signed_rep t -> 64 <= rbits t -> wf_period pl -> wf_period pr -> wf_count t l -> wf_count t r ->
  op = Plus \/ op = Minus ->
  duration_arith (denote o) t op pl pr l r = Some (pc, Ok x) ->
  same_value (seconds (value x) pc)
    (exact_opt op (seconds (count_value l) pl) (seconds (count_value r) pr)).
Proof. intros. now apply (duration_arith_exact o t op pl pr l r pc x). Qed.

Lemma c63_less_exact : forall o t pl pr l r b x y,
  signed_rep t -> 64 <= rbits t -> wf_period pl -> wf_period pr -> wf_count t l -> wf_count t r ->
  built_on_safe o = true \/ normalises_inputs o = true ->
  seconds (count_value l) pl = Some x -> seconds (count_value r) pr = Some y ->
  duration_lt (denote o) t pl pr l r = Some (Ok b) -> (b = true <-> (x < y)%Q).
Proof. intros. now apply (duration_lt_exact o t pl pr l r b x y). Qed.

Lemma c63_less_equal_exact : forall o t pl pr l r b x y,
  signed_rep t -> 64 <= rbits t -> wf_period pl -> wf_period pr -> wf_count t l -> wf_count t r ->
  built_on_safe o = true \/ normalises_inputs o = true ->
  seconds (count_value l) pl = Some x -> seconds (count_value r) pr = Some y ->
  duration_le (denote o) t pl pr l r = Some (Ok b) -> (b = true <-> (x <= y)%Q).
Proof.
  intros o t pl pr l r b x y S L A B C D O X Y H. unfold duration_le in H.
  destruct (duration_lt (denote o) t pr pl r l) as [[c|u]|] eqn:E; try discriminate.
  inversion H; subst b. pose proof (c63_less_exact o t pr pl r l c y x S L B A D C O Y X E) as K.
  destruct c; cbn.
  - assert (y < x)%Q by now apply K. split; [discriminate|]. intros. lra.
  - split; auto. intros _. destruct (Qlt_le_dec y x) as [Q|Q]; auto. apply K in Q. discriminate.
Qed.

Lemma c63_equal_exact : forall o t pl pr l r b,
  signed_rep t -> 64 <= rbits t -> wf_period pl -> wf_period pr -> wf_count t l -> wf_count t r ->
  duration_eq (denote o) t pl pr l r = Some (Ok b) ->
  (b = true <-> exists x y, seconds (count_value l) pl = Some x /\
     seconds (count_value r) pr = Some y /\ (x == y)%Q).
Proof. intros. now apply (duration_eq_exact o t pl pr l r b). Qed.

Lemma c63_undefined_less_equal_refuted : exists l r b,
  wf_count int64 l /\ wf_count int64 r /\ count_value l = None /\
  p_cmp (denote defaults) int64 Le (RR (to_cr int64 l) (to_cr int64 r)) = Ok b /\
  duration_le (denote defaults) int64 (mkPeriod 1 1) (mkPeriod 1 1) l r = Some (Ok (negb b)).
Proof.
  exists (FracCount (mkRaw 0 0)), (FracCount (mkRaw 1 1)), false. repeat split.
Qed.

