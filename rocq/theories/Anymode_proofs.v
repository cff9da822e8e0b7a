(** Lemmas about policies instantiated with any mode. *)

From Coq Require Import ZArith QArith Bool Lia.
From Verif Require Import Machine Raw Ops Modes Anymode Spec Anymode_spec.
From Verif Require Import Machine_proofs Value_proofs Ops_proofs Algebra_proofs Cmp_proofs Arith_claims Cmp_claims.
Open Scope Z_scope.

Lemma enumerator_dec : forall m, {enumerator m} + {~ enumerator m}.
Proof.
  intros m. unfold enumerator. destruct (Z.eq_dec m 0); [left; auto|].
  destruct (Z.eq_dec m 1); [left; auto|right; lia].
Qed.

Lemma reduce_any_named : forall t v m, enumerator m -> exists m', reduce_any t v m = reduce t v m' /\
  forall w, reduce_any t w m = reduce t w m'.
Proof.
  intros t v m [->| ->]; [exists normalize_signs_mode|exists ignore_signs_mode]; split; reflexivity.
Qed.
Lemma reduce_any_stray : forall t v m, ~ enumerator m -> reduce_any t v m = Ok (mkRaw 0 0).
Proof.
  intros t v m N. unfold reduce_any, enumerator in *.
  destruct (Z.eqb_spec m 0); [tauto|]. destruct (Z.eqb_spec m 1); [tauto|reflexivity].
Qed.

Lemma named_equal : forall z o, spells z o -> denote_any z = denote o.
Proof. intros z o H. induction H; cbn [denote denote_any]; rewrite ?IHspells; reflexivity. Qed.

Lemma spelled : forall z, ~ stray_input z -> ~ stray_output z -> exists o, spells z o.
Proof.
  induction z as [| |z IH m|z IH m]; cbn; intros I O.
  - exists Safe. constructor.
  - exists Fast. constructor.
  - destruct IH as [o S]; try tauto. destruct (enumerator_dec m) as [[->| ->]|N]; [| |tauto]; eexists; constructor; eauto.
  - destruct IH as [o S]; try tauto. destruct (enumerator_dec m) as [[->| ->]|N]; [| |tauto]; eexists; constructor; eauto.
Qed.

(** The operands after a reduced_input with any mode. *)
Definition reduce_args_any (t : rep) (a : args) (m : Z) : res args :=
  match a with
  | RR l r => do l <- reduce_any t l m; do r <- reduce_any t r m; Ok (RR l r)
  | RI l k => do l <- reduce_any t l m; Ok (RI l k)
  | IR k r => do r <- reduce_any t r m; Ok (IR k r)
  end.

Definition blank (a : args) : args :=
  match a with
  | RR _ _ => RR (mkRaw 0 0) (mkRaw 0 0)
  | RI _ k => RI (mkRaw 0 0) k
  | IR k _ => IR k (mkRaw 0 0)
  end.

Lemma ria_arith_eq : forall p m t op a,
  p_arith (reduced_input_any p m) t op a = (do a' <- reduce_args_any t a m; p_arith p t op a').
Proof.
  intros p m t op a. destruct a as [l r|l k|k r]; cbn [reduce_args_any].
  - destruct (reduce_any t l m) as [x|] eqn:L; [|destruct op; unfold p_arith, reduced_input_any, p_plus_rr, p_minus_rr, p_multiplies_rr, p_divides_rr, p_modulus_rr, ria_plus_rr, ria_minus_rr, ria_multiplies_rr, ria_divides_rr, ria_modulus_rr; rewrite L; reflexivity].
    destruct (reduce_any t r m) as [y|] eqn:R;
    destruct op; unfold p_arith, reduced_input_any, p_plus_rr, p_minus_rr, p_multiplies_rr, p_divides_rr, p_modulus_rr, ria_plus_rr, ria_minus_rr, ria_multiplies_rr, ria_divides_rr, ria_modulus_rr; rewrite L; cbn [bind]; rewrite R; reflexivity.
  - destruct (reduce_any t l m) as [x|] eqn:L;
    destruct op; unfold p_arith, reduced_input_any, p_plus_ri, p_minus_ri, p_multiplies_ri, p_divides_ri, p_modulus_ri, ria_plus_ri, ria_minus_ri, ria_multiplies_ri, ria_divides_ri, ria_modulus_ri; rewrite L; reflexivity.
  - destruct (reduce_any t r m) as [x|] eqn:L;
    destruct op; unfold p_arith, reduced_input_any, p_plus_ir, p_minus_ir, p_multiplies_ir, p_divides_ir, p_modulus_ir, ria_plus_ir, ria_minus_ir, ria_multiplies_ir, ria_divides_ir, ria_modulus_ir; rewrite L; reflexivity.
Qed.

Lemma ria_cmp_eq : forall p m t op a,
  p_cmp (reduced_input_any p m) t op a = (do a' <- reduce_args_any t a m; p_cmp p t op a').
Proof.
  intros p m t op a. destruct a as [l r|l k|k r]; cbn [reduce_args_any].
  - destruct (reduce_any t l m) as [x|] eqn:L; [|destruct op; unfold p_cmp, reduced_input_any, p_equal_to_rr, p_not_equal_to_rr, p_less_rr, p_less_equal_rr, p_greater_rr, p_greater_equal_rr, ria_equal_to_rr, ria_not_equal_to_rr, ria_less_rr, ria_less_equal_rr, ria_greater_rr, ria_greater_equal_rr; rewrite L; reflexivity].
    destruct (reduce_any t r m) as [y|] eqn:R;
    destruct op; unfold p_cmp, reduced_input_any, p_equal_to_rr, p_not_equal_to_rr, p_less_rr, p_less_equal_rr, p_greater_rr, p_greater_equal_rr, ria_equal_to_rr, ria_not_equal_to_rr, ria_less_rr, ria_less_equal_rr, ria_greater_rr, ria_greater_equal_rr; rewrite L; cbn [bind]; rewrite R; reflexivity.
  - destruct (reduce_any t l m) as [x|] eqn:L;
    destruct op; unfold p_cmp, reduced_input_any, p_equal_to_ri, p_not_equal_to_ri, p_less_ri, p_less_equal_ri, p_greater_ri, p_greater_equal_ri, ria_equal_to_ri, ria_not_equal_to_ri, ria_less_ri, ria_less_equal_ri, ria_greater_ri, ria_greater_equal_ri; rewrite L; reflexivity.
  - destruct (reduce_any t r m) as [x|] eqn:L;
    destruct op; unfold p_cmp, reduced_input_any, p_equal_to_ir, p_not_equal_to_ir, p_less_ir, p_less_equal_ir, p_greater_ir, p_greater_equal_ir, ria_equal_to_ir, ria_not_equal_to_ir, ria_less_ir, ria_less_equal_ir, ria_greater_ir, ria_greater_equal_ir; rewrite L; reflexivity.
Qed.

Lemma roa_arith_eq : forall p m t op a,
  p_arith (reduced_output_any p m) t op a = (do r <- p_arith p t op a; reduce_any t r m).
Proof. intros p m t op a; destruct op, a; reflexivity. Qed.

Lemma roa_cmp_eq : forall p m t op a, p_cmp (reduced_output_any p m) t op a = p_cmp p t op a.
Proof. intros p m t op a; destruct op, a; reflexivity. Qed.

Lemma ria_negate_eq : forall p m t v, p_negate (reduced_input_any p m) t v = (do w <- reduce_any t v 0; p_negate p t w).
Proof. reflexivity. Qed.
Lemma roa_negate_eq : forall p m t v, p_negate (reduced_output_any p m) t v = (do r <- p_negate p t v; reduce_any t r m).
Proof. reflexivity. Qed.

Lemma reduce_args_stray : forall t a m, ~ enumerator m -> reduce_args_any t a m = Ok (blank a).
Proof. intros t a m N. destruct a; cbn [reduce_args_any]; rewrite ?(reduce_any_stray t _ m N); reflexivity. Qed.

Lemma reduce_any_zero : forall t m, wf_rep t -> reduce_any t (mkRaw 0 0) m = Ok (mkRaw 0 0).
Proof.
  intros t m W. destruct (enumerator_dec m) as [E|N]; [|now apply reduce_any_stray].
  destruct (reduce_any_named t (mkRaw 0 0) m E) as (m' & -> & _). now apply reduce_zero.
Qed.

Lemma reduce_args_blank : forall t a m, wf_rep t -> reduce_args_any t (blank a) m = Ok (blank a).
Proof. intros t a m W. destruct a; cbn [reduce_args_any blank]; rewrite ?(reduce_any_zero t m W); reflexivity. Qed.

Lemma wf_zero : forall t, wf_rep t -> wf_raw t (mkRaw 0 0).
Proof. intros t W. pose proof (rmax_big t W). split; apply in_rep_abs; auto; cbn; lia. Qed.

Lemma blank_wf : forall t a, wf_rep t -> wf_args t a -> wf_args t (blank a).
Proof. intros t a W A. pose proof (wf_zero t W). destruct a; cbn in *; tauto. Qed.

Lemma reduce_any_spec : forall t v m r, wf_rep t -> wf_raw t v -> reduce_any t v m = Ok r ->
  wf_raw t r /\ (value v = None -> value r = None) /\ (enumerator m -> same_value (value r) (value v)).
Proof.
  intros t v m r W V H. destruct (enumerator_dec m) as [E|N].
  - destruct (reduce_any_named t v m E) as (m' & X & _). rewrite X in H.
    apply reduce_spec in H as (Wr & R & _); auto. split; [exact Wr|].
    pose proof (reduces_same_value _ _ _ R) as S. split; [|auto].
    intros Z. rewrite Z in S. destruct (value r); [contradiction|reflexivity].
  - rewrite reduce_any_stray in H by auto. inversion H; subst. split; [now apply wf_zero|]. split; [reflexivity|tauto].
Qed.

Lemma reduce_args_any_wf : forall t a m b, wf_rep t -> wf_args t a -> reduce_args_any t a m = Ok b -> wf_args t b.
Proof.
  intros t a m b W A H. destruct a as [l r|l k|k r]; cbn [reduce_args_any] in H; destruct A as [A1 A2]; inv_bind H; inversion H; subst;
  repeat match goal with E : reduce_any _ _ _ = Ok _ |- _ => apply reduce_any_spec in E as [? _]; auto end; split; auto.
Qed.

Lemma any_wf : forall z t op a r, wf_rep t -> wf_args t a -> p_arith (denote_any z) t op a = Ok r -> wf_raw t r.
Proof.
  induction z as [| |z IH m|z IH m]; intros t op a r W A H; cbn [denote_any] in H.
  - exact (proj1 (denote_wf Safe) t op a r W A H).
  - exact (proj1 (denote_wf Fast) t op a r W A H).
  - rewrite ria_arith_eq in H. inv_bind H. eapply IH; [exact W| |exact H]. eapply reduce_args_any_wf; eauto.
  - rewrite roa_arith_eq in H. inv_bind H. eapply reduce_any_spec; [exact W| |exact H]. eapply IH; eauto.
Qed.

Lemma any_blank : forall z t op a r, wf_rep t -> wf_args t a -> p_arith (denote_any z) t op (blank a) = Ok r -> value r = None.
Proof.
  induction z as [| |z IH m|z IH m]; intros t op a r W A H; cbn [denote_any] in H.
  - eapply (denote_undef Safe); [exact W|apply blank_wf; eauto| | |exact H].
    + intros [L R]. destruct a; cbn in L, R; congruence.
    + right. right. destruct a; cbn; auto. right. lia.
  - eapply (denote_undef Fast); [exact W|apply blank_wf; eauto| | |exact H].
    + intros [L R]. destruct a; cbn in L, R; congruence.
    + right. right. destruct a; cbn; auto. right. lia.
  - rewrite ria_arith_eq, reduce_args_blank in H by auto. cbn [bind] in H. eapply IH; eauto.
  - rewrite roa_arith_eq in H. inv_bind H.
    pose proof (any_wf z t op _ _ W (blank_wf t a W A) E) as W1.
    apply IH in E; auto. eapply reduce_any_spec; eauto.
Qed.

Lemma any_stray : forall z t op a r, wf_rep t -> wf_args t a -> stray_input z \/ stray_output z ->
  p_arith (denote_any z) t op a = Ok r -> value r = None.
Proof.
  induction z as [| |z IH m|z IH m]; intros t op a r W A S H; cbn [denote_any stray_input stray_output] in *; try tauto.
  - rewrite ria_arith_eq in H. destruct (enumerator_dec m) as [E|N].
    + inv_bind H. eapply IH; [exact W| |tauto|exact H]. eapply reduce_args_any_wf; eauto.
    + rewrite reduce_args_stray in H by auto. cbn [bind] in H. eapply any_blank; eauto.
  - rewrite roa_arith_eq in H. inv_bind H. pose proof (any_wf z t op a _ W A E) as W1.
    destruct (enumerator_dec m) as [E'|N].
    + destruct (reduce_any_spec t _ m r W W1 H) as (_ & Z & _). apply Z. apply (IH t op a _ W A); [tauto|exact E].
    + rewrite reduce_any_stray in H by auto. inversion H; subst. reflexivity.
Qed.

Lemma any_traps_blank : forall z t op l r, wf_rep t -> rests_on_safe z = true ->
  op = Plus \/ op = Minus \/ op = Modulus ->
  exists u, p_arith (denote_any z) t op (blank (RR l r)) = UB u.
Proof.
  induction z as [| |z IH m|z IH m]; intros t op l r W S O; cbn [denote_any rests_on_safe] in *; try discriminate.
  - apply (c18_safe_undefined_traps Safe); auto using wf_zero.
  - rewrite ria_arith_eq, reduce_args_blank by auto. cbn [bind]. now apply IH.
  - rewrite roa_arith_eq. destruct (IH t op l r W S O) as [u ->]. cbn. eauto.
Qed.

Lemma any_traps : forall z t op l r, wf_rep t -> wf_raw t l -> wf_raw t r -> rests_on_safe z = true -> stray_input z ->
  op = Plus \/ op = Minus \/ op = Modulus -> exists u, p_arith (denote_any z) t op (RR l r) = UB u.
Proof.
  induction z as [| |z IH m|z IH m]; intros t op l r W L R S I O; cbn [denote_any rests_on_safe stray_input] in *; try tauto.
  - rewrite ria_arith_eq. destruct (enumerator_dec m) as [E|N].
    + cbn [reduce_args_any]. destruct (reduce_any t l m) as [l'|] eqn:El; cbn [bind]; [|eauto].
      destruct (reduce_any t r m) as [r'|] eqn:Er; cbn [bind]; [|eauto].
      apply reduce_any_spec in El as [? _]; auto. apply reduce_any_spec in Er as [? _]; auto. apply IH; auto. tauto.
    + rewrite reduce_args_stray by auto. cbn [bind]. now apply any_traps_blank.
  - rewrite roa_arith_eq. destruct (IH t op l r W L R S I O) as [u ->]. cbn. eauto.
Qed.

Lemma any_cmp_blank : forall z t op a b, wf_rep t -> wf_args t a -> p_cmp (denote_any z) t op (blank a) = Ok b ->
  b = match op with Ne => true | _ => false end.
Proof.
  induction z as [| |z IH m|z IH m]; intros t op a b W A H; cbn [denote_any] in H.
  - eapply (c17_undefined_unordered Safe); [exact W|apply blank_wf; eauto| |exact H]. destruct a; cbn; auto.
  - eapply (c17_undefined_unordered Fast); [exact W|apply blank_wf; eauto| |exact H]. destruct a; cbn; auto.
  - rewrite ria_cmp_eq, reduce_args_blank in H by auto. cbn [bind] in H. eapply IH; eauto.
  - rewrite roa_cmp_eq in H. eapply IH; eauto.
Qed.

Lemma any_cmp_stray : forall z t op a b, wf_rep t -> wf_args t a -> stray_input z ->
  p_cmp (denote_any z) t op a = Ok b -> b = match op with Ne => true | _ => false end.
Proof.
  induction z as [| |z IH m|z IH m]; intros t op a b W A S H; cbn [denote_any stray_input] in *; try tauto.
  - rewrite ria_cmp_eq in H. destruct (enumerator_dec m) as [E|N].
    + inv_bind H. eapply IH; [exact W| |tauto|exact H]. eapply reduce_args_any_wf; eauto.
    + rewrite reduce_args_stray in H by auto. cbn [bind] in H. eapply any_cmp_blank; eauto.
  - rewrite roa_cmp_eq in H. eapply IH; eauto.
Qed.

Lemma compares_equal : forall z o, compares_as z o -> forall t op a,
  p_cmp (denote_any z) t op a = p_cmp (denote o) t op a.
Proof.
  intros z o H. induction H as [| |z o H IH|z o H IH|z o m H IH]; intros t op a; cbn [denote_any denote]; auto.
  - rewrite ria_cmp_eq, ri_cmp_eq. change (reduce_args_any t a 0) with (reduce_args t a normalize_signs_mode).
    destruct (reduce_args t a normalize_signs_mode); cbn [bind]; auto.
  - rewrite ria_cmp_eq, ri_cmp_eq. change (reduce_args_any t a 1) with (reduce_args t a ignore_signs_mode).
    destruct (reduce_args t a ignore_signs_mode); cbn [bind]; auto.
  - rewrite roa_cmp_eq. apply IH.
Qed.
Lemma compares_total : forall z, ~ stray_input z -> exists o, compares_as z o.
Proof.
  induction z as [| |z IH m|z IH m]; cbn; intros N; try (eexists; constructor; fail).
  - destruct IH as [o S]; try tauto. destruct (enumerator_dec m) as [[->| ->]|X]; [| |tauto]; eexists; constructor; eauto.
  - destruct IH as [o S]; try tauto. exists o. now constructor.
Qed.

Lemma negates_equal : forall z o, negates_as z o -> forall t v,
  p_negate (denote_any z) t v = p_negate (denote o) t v.
Proof.
  intros z o H. induction H as [| |z o m m' H IH|z o H IH|z o H IH]; intros t v; cbn [denote_any denote]; auto.
  - rewrite ria_negate_eq. change (reduce_any t v 0) with (reduce t v normalize_signs_mode).
    unfold p_negate at 2, reduced_input, ri_negate. destruct (reduce t v normalize_signs_mode); cbn [bind]; auto.
  - rewrite roa_negate_eq, IH. reflexivity.
  - rewrite roa_negate_eq, IH. reflexivity.
Qed.
Lemma negates_total : forall z, ~ stray_output z -> exists o, negates_as z o.
Proof.
  induction z as [| |z IH m|z IH m]; cbn; intros N; try (eexists; constructor; fail).
  - destruct IH as [o S]; try tauto. exists (ReducedInput o ignore_signs_mode). now constructor.
  - destruct IH as [o S]; try tauto. destruct (enumerator_dec m) as [[->| ->]|X]; [| |tauto]; eexists; constructor; eauto.
Qed.

Lemma any_negate_wf : forall z t v r, wf_rep t -> wf_raw t v -> p_negate (denote_any z) t v = Ok r -> wf_raw t r.
Proof.
  induction z as [| |z IH m|z IH m]; intros t v r W V H; cbn [denote_any] in H.
  - exact (proj2 (denote_wf Safe) t v r W V H).
  - exact (proj2 (denote_wf Fast) t v r W V H).
  - rewrite ria_negate_eq in H. inv_bind H. eapply IH; [exact W| |exact H]. eapply reduce_any_spec; eauto.
  - rewrite roa_negate_eq in H. inv_bind H. eapply reduce_any_spec; [exact W| |exact H]. eapply IH; eauto.
Qed.

Lemma any_negate_stray : forall z t v r, wf_rep t -> wf_raw t v -> stray_output z ->
  p_negate (denote_any z) t v = Ok r -> value r = None.
Proof.
  induction z as [| |z IH m|z IH m]; intros t v r W V S H; cbn [denote_any stray_output] in *; try tauto.
  - rewrite ria_negate_eq in H. inv_bind H. eapply IH; [exact W| |tauto|exact H]. eapply reduce_any_spec; eauto.
  - rewrite roa_negate_eq in H. inv_bind H. pose proof (any_negate_wf z t v _ W V E) as W1.
    destruct (enumerator_dec m) as [E'|N].
    + destruct (reduce_any_spec t _ m r W W1 H) as (_ & Z & _). apply Z. apply (IH t v _ W V); [tauto|exact E].
    + rewrite reduce_any_stray in H by auto. inversion H; subst. reflexivity.
Qed.
