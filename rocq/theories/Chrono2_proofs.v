(** Proofs about further operations on durations. *)

From Coq Require Import ZArith QArith Qabs List Bool Lia Lqa Psatz.
From Verif Require Import Machine Raw Ops Spec Fraction Mixed_spec Chrono Chrono_spec Chrono2 Chrono2_spec.
From Verif Require Import Machine_proofs Value_proofs Qtrunc_proofs Ops_proofs Algebra_proofs Cmp_claims Fraction_proofs Fmath_proofs Limits_proofs Literals_proofs Chrono_proofs.
Import ListNotations.
Open Scope Z_scope.

(** Operations on the counts of a common duration. *)
Lemma casts_exact : forall o t pl pr q l r a b, signed_rep t -> 64 <= rbits t -> wf_period pl -> wf_period pr -> wf_period q ->
  wf_count t l -> wf_count t r ->
  duration_cast (denote o) t pl q l = Some (Ok a) -> duration_cast (denote o) t pr q r = Some (Ok b) ->
  wf_raw t a /\ wf_raw t b /\ same_value (seconds (value a) q) (seconds (count_value l) pl) /\
  same_value (seconds (value b) q) (seconds (count_value r) pr).
Proof.
  intros o t pl pr q l r a b SR L WL WR WQ CL CR EA EB.
  assert (FL : factor_fits t pl q).
  { apply factor_fits_64; auto. intros N. unfold duration_cast in EA. rewrite N in EA. discriminate. }
  assert (FR : factor_fits t pr q).
  { apply factor_fits_64; auto. intros N. unfold duration_cast in EB. rewrite N in EB. discriminate. }
  destruct (duration_cast_exact o t pl q l a SR WL WQ CL FL EA) as [A1 A2].
  destruct (duration_cast_exact o t pr q r b SR WR WQ CR FR EB) as [B1 B2]. auto.
Qed.

Lemma arith_casts : forall p t op pl pr l r pc x, duration_arith p t op pl pr l r = Some (pc, Ok x) ->
  exists a b, common_period pl pr = Some pc /\ duration_cast p t pl pc l = Some (Ok a) /\
    duration_cast p t pr pc r = Some (Ok b) /\ f_arith p t t op (RR a b) = Ok x.
Proof.
  intros p t op pl pr l r pc x H. unfold duration_arith in H.
  destruct (common_period pl pr) as [q|] eqn:P; [|discriminate].
  destruct (duration_cast p t pl q l) as [a|] eqn:EA; [|discriminate].
  destruct (duration_cast p t pr q r) as [b|] eqn:EB; [|discriminate].
  injection H as <- H. destruct a as [a|]; [|discriminate]. destruct b as [b|]; [|discriminate]. cbn [bind] in H.
  exists a, b. repeat split; auto.
Qed.

Lemma exact_mod_scale : forall x y p, (0 < p)%Q ->
  same_value (exact Modulus (x * p) (y * p)) (match exact Modulus x y with Some r => Some (r * p)%Q | None => None end).
Proof.
  intros x y p P. cbn [exact].
  destruct (Qeq_bool y 0) eqn:E.
  - apply Qeq_bool_iff in E. replace (Qeq_bool (y * p) 0) with true; [exact I|]. symmetry. apply Qeq_bool_iff. rewrite E. ring.
  - apply Qeq_bool_neq in E. replace (Qeq_bool (y * p) 0) with false.
    + cbn [same_value]. assert (Q : (x * p / (y * p) == x / y)%Q) by (field; split; auto; lra).
      rewrite Q. ring.
    + symmetry. apply not_true_is_false. intros X. apply Qeq_bool_iff in X. apply E.
      destruct (Qmult_integral _ _ X); auto. lra.
Qed.

Lemma exact_div_scale : forall x y p, (0 < p)%Q ->
  same_value (exact Divides (x * p) (y * p)) (exact Divides x y).
Proof.
  intros x y p P. cbn [exact].
  destruct (Qeq_bool y 0) eqn:E.
  - apply Qeq_bool_iff in E. replace (Qeq_bool (y * p) 0) with true; [exact I|]. symmetry. apply Qeq_bool_iff. rewrite E. ring.
  - apply Qeq_bool_neq in E. replace (Qeq_bool (y * p) 0) with false.
    + cbn [same_value]. field. split; auto; lra.
    + symmetry. apply not_true_is_false. intros X. apply Qeq_bool_iff in X. apply E.
      destruct (Qmult_integral _ _ X); auto. lra.
Qed.

Theorem ratio_exact : forall o t pl pr l r x, signed_rep t -> 64 <= rbits t -> wf_period pl -> wf_period pr ->
  wf_count t l -> wf_count t r -> reduces_inputs o = true \/ count_value r <> None ->
  duration_ratio (denote o) t pl pr l r = Some (Ok x) ->
  same_value (value x) (exact_opt Divides (seconds (count_value l) pl) (seconds (count_value r) pr)).
Proof.
  intros o t pl pr l r x SR L WL WR CL CR DR H. unfold duration_ratio in H.
  destruct (duration_arith (denote o) t Divides pl pr l r) as [[pc y]|] eqn:E; [|discriminate].
  injection H as ->. apply arith_casts in E as [a [b [P [EA [EB H]]]]].
  pose proof (common_period_ok pl pr pc WL WR P) as WQ.
  destruct (casts_exact o t pl pr pc l r a b SR L WL WR WQ CL CR EA EB) as [A1 [B1 [A2 B2]]].
  rewrite f_arith_self in H. pose proof SR as [W S].
  assert (X : same_value (value x) (exact_opt Divides (value a) (value b))).
  { apply (denote_exact_opt o t Divides (RR a b) x W S); auto; [now split|]. right.
    destruct DR as [DR|DR]; [now left|right]. cbn [right_value].
    intros N. rewrite N in B2. cbn [seconds same_value] in B2. destruct (count_value r); [contradiction|]. now apply DR. }
  eapply same_trans; [exact X|]. rewrite <- A2, <- B2. 
  pose proof (period_pos pc WQ) as PP.
  destruct (value a) as [va|], (value b) as [vb|]; cbn [seconds exact_opt]; try exact I.
  apply same_sym. now apply exact_div_scale.
Qed.

Theorem mod_exact : forall o t pl pr l r pc x, signed_rep t -> 64 <= rbits t -> wf_period pl -> wf_period pr ->
  wf_count t l -> wf_count t r ->
  duration_mod (denote o) t pl pr l r = Some (pc, Ok x) ->
  same_value (seconds (value x) pc) (exact_opt Modulus (seconds (count_value l) pl) (seconds (count_value r) pr)).
Proof.
  intros o t pl pr l r pc x SR L WL WR CL CR E. unfold duration_mod in E.
  apply arith_casts in E as [a [b [P [EA [EB H]]]]].
  pose proof (common_period_ok pl pr pc WL WR P) as WQ.
  destruct (casts_exact o t pl pr pc l r a b SR L WL WR WQ CL CR EA EB) as [A1 [B1 [A2 B2]]].
  rewrite f_arith_self in H. pose proof SR as [W S].
  assert (X : same_value (value x) (exact_opt Modulus (value a) (value b))).
  { apply (denote_exact_opt o t Modulus (RR a b) x W S); auto; [now split|]. left. discriminate. }
  eapply same_trans; [apply seconds_same; exact X|]. rewrite <- A2, <- B2.
  pose proof (period_pos pc WQ) as PP.
  destruct (value a) as [va|], (value b) as [vb|]; cbn [seconds exact_opt]; try exact I.
  apply same_sym. eapply same_trans; [now apply exact_mod_scale|].
  destruct (exact Modulus va vb); cbn [seconds same_value]; auto; reflexivity.
Qed.

Theorem scale_exact : forall o t op c s r, signed_rep t -> wf_count t c ->
  wf_scalar t s ->
  op <> Divides \/ reduces_inputs o = true \/ scalar_value s <> None ->
  duration_scale (denote o) t op c s = Ok r ->
  wf_raw t r /\ same_value (value r) (exact_opt op (count_value c) (scalar_value s)).
Proof.
  intros o t op c s r [W S] WC WS D H. unfold duration_scale in H.
  destruct (to_cr_ok t c W S WC) as [WR VR].
  destruct s as [k|s z].
  - rewrite f_arith_self in H. assert (WA : wf_args t (RR (to_cr t c) k)) by now split. split; [eapply arith_wf; eauto|].
    rewrite <- VR. now apply (denote_exact_opt o t op (RR (to_cr t c) k) r W S).
  - destruct WS as [Is [It C]]. unfold f_arith, common_args in H. rewrite C in H.
    assert (CZ : conv_int s t z = z) by now apply conv_int_id. rewrite CZ in H.
    assert (CR : conv_raw t t (to_cr t c) = to_cr t c) by now apply conv_raw_id. rewrite CR in H.
    destruct (p_arith (denote o) t op (RI (to_cr t c) z)) as [x|] eqn:E; [|discriminate]. cbn [bind] in H.
    assert (WA : wf_args t (RI (to_cr t c) z)) by now split.
    assert (WX : wf_raw t x) by (eapply arith_wf; eauto). rewrite conv_raw_id in H by auto. injection H as <-.
    split; auto. rewrite <- VR. now apply (denote_exact_opt o t op (RI (to_cr t c) z) x W S).
Qed.

Theorem assign_exact : forall o t op pl pr l r x, signed_rep t -> 64 <= rbits t -> wf_period pl -> wf_period pr ->
  wf_raw t l -> wf_count t r -> op = Plus \/ op = Minus \/ op = Modulus ->
  duration_assign (denote o) t op pl pr l r = Some (Ok x) ->
  same_value (seconds (value x) pl) (exact_opt op (seconds (value l) pl) (seconds (count_value r) pr)).
Proof.
  intros o t op pl pr l r x SR L WL WR WV CR HO H. unfold duration_assign in H.
  destruct (duration_cast (denote o) t pr pl r) as [c|] eqn:EB; [|discriminate].
  destruct c as [c|]; [|discriminate]. apply some_inj in H. cbn [bind] in H.
  assert (FR : factor_fits t pr pl).
  { apply factor_fits_64; auto. intros N. unfold duration_cast in EB. rewrite N in EB. discriminate. }
  destruct (duration_cast_exact o t pr pl r c SR WR WL CR FR EB) as [B1 B2].
  unfold f_assign in H. rewrite f_arith_self in H. pose proof SR as [W S].
  assert (CI : conv_raw t t c = c) by (now apply conv_raw_id). rewrite CI in H.
  assert (X : same_value (value x) (exact_opt op (value l) (value c))).
  { apply (denote_exact_opt o t op (RR l c) x W S); auto; [now split|]. left. destruct HO as [->|[->| ->]]; discriminate. }
  eapply same_trans; [apply seconds_same; exact X|]. rewrite <- B2.
  pose proof (period_pos pl WL) as PP.
  destruct (value l) as [vl|], (value c) as [vc|]; cbn [seconds exact_opt]; try exact I.
  destruct HO as [->|[->| ->]].
  - cbn [exact seconds same_value]. ring.
  - cbn [exact seconds same_value]. ring.
  - apply same_sym. eapply same_trans; [now apply exact_mod_scale|].
    destruct (exact Modulus vl vc); cbn [seconds same_value]; auto; reflexivity.
Qed.

Theorem abs_exact : forall o t v r q, signed_rep t -> wf_raw t v ->
  built_on_safe o = true \/ normalises_inputs o = true -> value v = Some q ->
  duration_abs (denote o) t v = Ok r -> same_value (value r) (Some (Qabs q)).
Proof.
  intros o t v r q [W S] WV HO V H. unfold duration_abs in H. inv_bind H. rename a into b. rewrite f_cmp_self in E.
  assert (I0 : in_rep t 0 = true).
  { apply in_rep_iff. pose proof (rmax_big t W). pose proof (rmin_nonpos t W). lia. }
  assert (W0 : wf_raw t (f_of_int 0)) by now apply int_raw_ok.
  assert (V0 : exists z, value (f_of_int 0) = Some z /\ (z == 0)%Q) by (exists (inject_Z 0 / inject_Z 1)%Q; split; reflexivity).
  destruct V0 as [z [V0 Z]].
  pose proof (c13_order_exact o t v (f_of_int 0) b q z Lt W S WV W0 HO V V0 (or_introl eq_refl) E) as K. cbn iota in K.
  rewrite Z in K. destruct b.
  - unfold duration_negate, f_negate in H. pose proof (denote_negate o t v r W S WV H) as N. rewrite V in N.
    eapply same_trans; [exact N|]. cbn [opp_opt same_value]. rewrite Qabs_neg; [reflexivity|]. apply Qlt_le_weak. now apply K.
  - injection H as <-. rewrite V. cbn [same_value]. rewrite Qabs_pos; [reflexivity|].
    apply Qnot_lt_le. intros X. apply K in X. discriminate.
Qed.

Theorem floor_is_cast : forall o t from to c r q, signed_rep t -> 64 <= rbits t -> wf_period from -> wf_period to -> wf_count t c ->
  built_on_safe o = true \/ normalises_inputs o = true -> count_value c = Some q ->
  duration_floor (denote o) t from to c = Some (Ok r) \/ duration_ceil (denote o) t from to c = Some (Ok r) ->
  duration_cast (denote o) t from to c = Some (Ok r).
Proof.
  intros o t from to c r q SR L WF WT WC HO V H.
  destruct (duration_cast (denote o) t from to c) as [[x|u]|] eqn:E.
  2: { destruct H as [H|H]; [unfold duration_floor in H|unfold duration_ceil in H]; rewrite E in H; discriminate. }
  2: { destruct H as [H|H]; [unfold duration_floor in H|unfold duration_ceil in H]; rewrite E in H; discriminate. }
  assert (FF : factor_fits t from to).
  { apply factor_fits_64; auto. intros N. unfold duration_cast in E. rewrite N in E. discriminate. }
  destruct (duration_cast_exact o t from to c x SR WF WT WC FF E) as [X1 X2].
  rewrite V in X2. cbn [seconds] in X2. destruct (value x) as [vx|] eqn:VX; [|contradiction]. cbn [seconds same_value] in X2.
  destruct H as [H|H].
  - unfold duration_floor in H. rewrite E in H.
    destruct (duration_lt (denote o) t from to c (FracCount x)) as [[b|]|] eqn:D; try discriminate. cbn [bind] in H.
    pose proof (duration_lt_exact o t from to c (FracCount x) b (q * period_value from) (vx * period_value to) SR WF WT WC X1 L HO) as K.
    cbn [count_value] in K. rewrite V, VX in K. specialize (K eq_refl eq_refl D).
    destruct b; [|congruence]. exfalso. assert (true = true) as Y by reflexivity. apply K in Y. lra.
  - unfold duration_ceil in H. rewrite E in H.
    destruct (duration_lt (denote o) t to from (FracCount x) c) as [[b|]|] eqn:D; try discriminate. cbn [bind] in H.
    pose proof (duration_lt_exact o t to from (FracCount x) c b (vx * period_value to) (q * period_value from) SR WT WF X1 WC L HO) as K.
    cbn [count_value] in K. rewrite V, VX in K. specialize (K eq_refl eq_refl D).
    destruct b; [|congruence]. exfalso. assert (true = true) as Y by reflexivity. apply K in Y. lra.
Qed.
