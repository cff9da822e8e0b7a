(** Expressions over fractions and integers of different types. *)

From Coq Require Import ZArith QArith List Bool Lia Permutation.
From Verif Require Import Machine Raw Ops Spec Fraction Fraction_spec Fmath Mixed_spec Program Wide_spec Sums_spec Blend_spec.
From Verif Require Import Machine_proofs Value_proofs Ops_proofs Algebra_proofs Fraction_proofs Mixed_proofs Program_proofs Program3_proofs Sums_proofs Wide_proofs.
Import ListNotations.
Open Scope Z_scope.

(** ** Types *)

Lemma below_refl : forall a, below a a.
Proof. intros [[] b]; right; auto. Qed.
Lemma below_trans : forall a b c, below a b -> below b c -> below a c.
Proof.
  unfold below. intros [[] a] [[] b] [[] c]; cbn; intros H K;
    destruct H as [H|[H [H'|H']]], K as [K|[K [K'|K']]]; try discriminate; lia || (right; split; [lia|auto]).
Qed.
Lemma below_antisym : forall a b, below a b -> below b a -> a = b.
Proof.
  unfold below. intros [[] a] [[] b]; cbn; intros H K;
    destruct H as [H|[H [H'|H']]], K as [K|[K [K'|K']]]; try discriminate; try lia; f_equal; lia.
Qed.
Lemma common_max : forall a b, (common_rep a b = a \/ common_rep a b = b) /\ below a (common_rep a b) /\ below b (common_rep a b).
Proof.
  intros [sa a] [sb b]. unfold common_rep, below. destruct sa, sb; cbn -[Z.ltb Z.leb];
    repeat match goal with
    | |- context [Z.ltb ?x ?y] => destruct (Z.ltb_spec x y)
    | |- context [Z.leb ?x ?y] => destruct (Z.leb_spec x y)
    end; cbn; (split; [auto|]); destruct (Z.eq_dec a b); split;
    solve [left; lia | right; split; [lia|auto]].
Qed.

Lemma ftype_max : forall ty e, In (ftype ty e) (operand_types ty e) /\
  forall t, In t (operand_types ty e) -> below t (ftype ty e).
Proof.
  assert (J : forall a b la lb, In a la -> (forall t, In t la -> below t a) -> In b lb -> (forall t, In t lb -> below t b) ->
    In (common_rep a b) (la ++ lb) /\ forall t, In t (la ++ lb) -> below t (common_rep a b)).
  { intros a b la lb A B C D. destruct (common_max a b) as [E [U V]]. split.
    - apply in_or_app. destruct E as [-> | ->]; auto.
    - intros t I. apply in_app_or in I as [I|I]; eapply below_trans; eauto. }
  assert (K : forall a, In a [a] /\ forall t, In t [a] -> below t a).
  { intros a. split; [cbn; auto|]. intros t [<- |[]]. apply below_refl. }
  intros ty e. induction e as [x|t r|i|e IH|e IH|e IH|e IH|op l IHl r IHr|op l IHl i|op i r IHr]; cbn [ftype operand_types]; auto.
  - apply J; tauto.
  - apply J; try tauto; apply K.
  - apply (J _ _ [itype ty i]); try tauto; apply K.
Qed.

Lemma ftype_order : forall ty ty' e e', (forall t, In t (operand_types ty e) <-> In t (operand_types ty' e')) ->
  ftype ty e = ftype ty' e'.
Proof.
  intros ty ty' e e' H. destruct (ftype_max ty e) as [A B], (ftype_max ty' e') as [C D].
  apply below_antisym; [apply D, H, A|apply B, H, C].
Qed.

(** ** Values *)

Lemma sound_i_bits : forall ty s i, sound_i ty s i -> 1 < rbits (itype ty i).
Proof.
  intros ty s [t z|x|x|x]; cbn; intros [A B]; auto; destruct A as [A _]; unfold wf_rep in *; lia.
Qed.
Lemma sound_wf : forall ty s e, sound ty s e -> wf_rep (ftype ty e).
Proof.
  intros ty s e. induction e as [x|t r|i|e IH|e IH|e IH|e IH|op l IHl r IHr|op l IHl i|op i r IHr]; cbn [sound ftype]; try tauto.
  - intros [A [B C]]. apply common_wf; auto.
  - intros [A [B C]]. apply sound_i_bits in B. apply common_wf; auto.
  - intros [A [B C]]. apply sound_i_bits in A. apply common_wf; auto.
Qed.
Lemma sound_i_in : forall ty s i z, sound_i ty s i -> ieval ty s i = Ok z -> in_rep (itype ty i) z = true.
Proof.
  intros ty s [t z|x|x|x] k; cbn; intros [A B] E.
  - now injection E as <-.
  - injection E as <-. apply B.
  - injection E as <-. apply B.
  - destruct A. eapply f_trunc_in; eauto.
Qed.

(** The operator is the policy's operator in the common type. *)
Lemma blend_arith : forall o tl tr op a r, wf_reps tl tr a -> wf_args2 tl tr a -> rsigned (common_rep tl tr) = true ->
  f_arith (denote o) tl tr op a = Ok r ->
  p_arith (denote o) (common_rep tl tr) op a = Ok r /\ wf_args (common_rep tl tr) a /\ wf_raw (common_rep tl tr) r /\
  signed_rep (common_rep tl tr).
Proof.
  intros o tl tr op a r R A S E. rewrite f_arith_mixed in E by auto. destruct (common_args_id tl tr a R A (or_introl S)) as [_ [W C]].
  split; auto. split; auto. split; [eapply arith_wf; eauto|split; auto].
Qed.

Lemma one_in : forall t, wf_rep t -> in_rep t 1 = true.
Proof.
  intros [[] b] W; apply in_rep_iff; unfold wf_rep, rmin, rmax in *; cbn in *;
    [pose proof (Z.pow_le_mono_r 2 31 (b - 1))|pose proof (Z.pow_le_mono_r 2 31 b)]; lia.
Qed.
Lemma sound_value : forall o ty s e r, sound ty s e -> feval (denote o) ty s e = Ok r -> wf_raw (ftype ty e) r.
Proof.
  intros o ty s e. induction e as [x|t v|i|e IH|e IH|e IH|e IH|op l IHl v IHr|op l IHl i|op i v IHr];
    intros r S E; cbn [feval] in E; pose proof (sound_wf _ _ _ S) as WF; cbn [sound ftype] in *.
  - injection E as <-. apply S.
  - injection E as <-. apply S.
  - inv_bind E. injection E as <-. destruct S as [S W]. split; [now apply (sound_i_in ty s)|now apply one_in].
  - inv_bind E. injection E as <-. auto.
  - inv_bind E. destruct S as [S N]. eapply negate_wf; eauto.
  - inv_bind E. destruct S as [S N]. unfold f_abs, f_negate in E. destruct (is_non_negative a); [injection E as <-; auto|].
    eapply negate_wf; eauto.
  - inv_bind E. destruct S as [S N]. apply (reduce_spec _ _ normalize_signs_mode) in E as [G _]; auto.
  - inv_bind E. inv_bind E. destruct S as [A [B C]].
    apply blend_arith in E; try tauto; cbn; split; eauto using sound_wf.
  - inv_bind E. inv_bind E. destruct S as [A [B C]].
    apply blend_arith in E; try tauto; cbn; split; eauto using sound_wf, sound_i_bits, sound_i_in.
  - inv_bind E. inv_bind E. destruct S as [A [B C]].
    apply blend_arith in E; try tauto; cbn; split; eauto using sound_wf, sound_i_bits, sound_i_in.
Qed.

(** *** Everything in one type *)

Lemma retyped_ftype : forall t e, ftype (fun _ => t) (retyped_f t e) = t.
Proof.
  intros t e. induction e as [x|t' v|i|e IH|e IH|e IH|e IH|op l IHl v IHr|op l IHl i|op i v IHr]; cbn [retyped_f ftype]; auto.
  - destruct i; auto.
  - now rewrite IHl, IHr, common_self.
  - rewrite IHl. destruct i; cbn; now rewrite common_self.
  - rewrite IHr. destruct i; cbn; now rewrite common_self.
Qed.
Lemma retyped_itype : forall t i, itype (fun _ => t) (retyped_i t i) = t.
Proof. intros t [t' z|x|x|x]; reflexivity. Qed.

Lemma below_bits : forall a b, below a b -> rbits a <= rbits b.
Proof. intros a b [H|[H _]]; lia. Qed.

Lemma retyped_ieval : forall t ty s i z, signed_rep t -> sound_i ty s i -> rbits (itype ty i) <= rbits t ->
  ieval ty s i = Ok z -> ieval (fun _ => t) s (retyped_i t i) = Ok z.
Proof.
  intros t ty s [t' k|x|x|x] z T S L E; cbn in *; auto. destruct S as [S W]. eapply x_trunc; [|exact E]. split; [auto|split; auto].
Qed.

Theorem one_type : forall o t ty s e r, signed_rep t -> sound ty s e -> rbits (ftype ty e) <= rbits t ->
  feval (denote o) ty s e = Ok r -> feval (denote o) (fun _ => t) s (retyped_f t e) = Ok r.
Proof.
  intros o t ty s e r T. revert r. induction e as [x|t' v|i|e IH|e IH|e IH|e IH|op l IHl v IHr|op l IHl i|op i v IHr];
    intros r S L E; pose proof (sound_wf _ _ _ S) as WF; cbn [sound ftype feval retyped_f] in *; auto.
  - inv_bind E. injection E as <-. destruct S as [S W]. now rewrite (retyped_ieval t ty s i a).
  - inv_bind E. injection E as <-. now rewrite (IH a).
  - inv_bind E. destruct S as [S N]. rewrite (IH a) by auto. cbn [bind]. rewrite retyped_ftype.
    eapply x_p_negate; [|exact E]. split; [split; auto|split; auto].
  - inv_bind E. destruct S as [S N]. rewrite (IH a) by auto. cbn [bind]. rewrite retyped_ftype.
    eapply x_abs; [|exact E]. split; [split; auto|split; auto].
  - inv_bind E. destruct S as [S N]. rewrite (IH a) by auto. cbn [bind]. rewrite retyped_ftype.
    eapply x_reduce; [|exact E]. split; [split; auto|split; auto].
  - inv_bind E. inv_bind E. destruct S as [A [B C]]. destruct (common_max (ftype ty l) (ftype ty v)) as [_ [U V]].
    apply below_bits in U. apply below_bits in V.
    rewrite (IHl a), (IHr a0) by (auto; lia). cbn [bind]. rewrite !retyped_ftype, f_arith_self.
    apply blend_arith in E; [|cbn; eauto using sound_wf|cbn; split; eapply sound_value; eauto|auto].
    destruct E as [E [_ [_ SR]]]. eapply x_p_arith; [|exact E]. split; [auto|split; auto].
  - inv_bind E. inv_bind E. destruct S as [A [B C]]. destruct (common_max (ftype ty l) (itype ty i)) as [_ [U V]].
    apply below_bits in U. apply below_bits in V.
    rewrite (IHl a), (retyped_ieval t ty s i a0) by (auto; lia). cbn [bind]. rewrite !retyped_ftype, retyped_itype, f_arith_self.
    apply blend_arith in E; [|cbn; eauto using sound_wf, sound_i_bits|cbn; split; eauto using sound_value, sound_i_in|auto].
    destruct E as [E [_ [_ SR]]]. eapply x_p_arith; [|exact E]. split; [auto|split; auto].
  - inv_bind E. inv_bind E. destruct S as [A [B C]]. destruct (common_max (itype ty i) (ftype ty v)) as [_ [U V]].
    apply below_bits in U. apply below_bits in V.
    rewrite (IHr a0), (retyped_ieval t ty s i a) by (auto; lia). cbn [bind]. rewrite !retyped_ftype, retyped_itype, f_arith_self.
    apply blend_arith in E; [|cbn; eauto using sound_wf, sound_i_bits|cbn; split; eauto using sound_value, sound_i_in|auto].
    destruct E as [E [_ [_ SR]]]. eapply x_p_arith; [|exact E]. split; [auto|split; auto].
Qed.

(** *** Order and bracketing *)

Lemma term_i_value : forall ty s i z, simple i -> ieval ty s i = Ok z -> same_value (value (term_i s i)) (Some (inject_Z z)).
Proof.
  intros ty s [t k|x|x|x] z H E; cbn in *; try tauto; injection E as <-; unfold Qdiv; cbn; ring.
Qed.

Lemma totals_one : forall op x, op = Plus \/ op = Multiplies -> same_value (totals op [x]) (value x).
Proof. intros op x O. unfold totals. cbn. destruct (value x); destruct O as [-> | ->]; cbn; auto; ring. Qed.

Lemma terms_value : forall o ty s op e r, op = Plus \/ op = Multiplies -> only op e -> sound ty s e ->
  feval (denote o) ty s e = Ok r -> same_value (value r) (totals op (terms s e)).
Proof.
  intros o ty s op e r O. assert (ND : op <> Divides) by (destruct O as [-> | ->]; discriminate).
  revert r. induction e as [x|t' v|i|e IH|e IH|e IH|e IH|op' l IHl v IHr|op' l IHl i|op' i v IHr];
    intros r N S E; cbn [only sound feval terms] in *; try tauto.
  - injection E as <-. symmetry. now apply totals_one.
  - injection E as <-. symmetry. now apply totals_one.
  - inv_bind E. injection E as <-. now apply IH.
  - inv_bind E. inv_bind E. destruct S as [A [B C]], N as [-> [N1 N2]].
    apply blend_arith in E; [|cbn; eauto using sound_wf|cbn; split; eapply sound_value; eauto|auto].
    destruct E as [E [W [_ [R G]]]]. apply denote_exact_opt in E; auto. rewrite E. cbn [left_value right_value].
    rewrite (IHl a), (IHr a0) by auto. symmetry. now apply totals_app.
  - inv_bind E. inv_bind E. destruct S as [A [B C]], N as [-> [N1 N2]].
    apply blend_arith in E; [|cbn; eauto using sound_wf, sound_i_bits|cbn; split; eauto using sound_value, sound_i_in|auto].
    destruct E as [E [W [_ [R G]]]]. apply denote_exact_opt in E; auto. rewrite E. cbn [left_value right_value].
    rewrite (IHl a) by auto. rewrite totals_app, totals_one by auto. now rewrite (term_i_value ty s i a0).
  - inv_bind E. inv_bind E. destruct S as [A [B C]], N as [-> [N1 N2]].
    apply blend_arith in E; [|cbn; eauto using sound_wf, sound_i_bits|cbn; split; eauto using sound_value, sound_i_in|auto].
    destruct E as [E [W [_ [R G]]]]. apply denote_exact_opt in E; auto. rewrite E. cbn [left_value right_value].
    rewrite (IHr a0) by auto. change (term_i s i :: terms s v) with ([term_i s i] ++ terms s v).
    rewrite totals_app, totals_one by auto. now rewrite (term_i_value ty s i a).
Qed.

Lemma terms_len : forall op s e, only op e -> (1 <= length (terms s e))%nat.
Proof.
  intros op s e. induction e as [x|t' v|i|e IH|e IH|e IH|e IH|op' l IHl v IHr|op' l IHl i|op' i v IHr];
    cbn [only terms]; try tauto; cbn; auto; rewrite ?app_length; cbn; try lia; intros [_ [A B]]; specialize (IHl A); lia.
Qed.

Lemma terms_cases : forall o ty s op e r, output_canonical o = true -> only op e -> sound ty s e ->
  feval (denote o) ty s e = Ok r -> terms s e = [r] \/ ((2 <= length (terms s e))%nat /\ canonical r).
Proof.
  intros o ty s op e r O. revert r.
  induction e as [x|t' v|i|e IH|e IH|e IH|e IH|op' l IHl v IHr|op' l IHl i|op' i v IHr];
    intros r N S E; cbn [only sound feval terms] in *; try tauto.
  - injection E as <-. auto.
  - injection E as <-. auto.
  - inv_bind E. injection E as <-. now apply IH.
  - inv_bind E. inv_bind E. destruct S as [A [B C]], N as [-> [N1 N2]]. right. split.
    + rewrite app_length. pose proof (terms_len _ s _ N1). pose proof (terms_len _ s _ N2). lia.
    + apply blend_arith in E; [|cbn; eauto using sound_wf|cbn; split; eapply sound_value; eauto|auto].
      destruct E as [E [W [_ [R G]]]]. eapply denote_canonical; eauto.
  - inv_bind E. inv_bind E. destruct S as [A [B C]], N as [-> [N1 N2]]. right. split.
    + rewrite app_length. cbn. pose proof (terms_len _ s _ N1). lia.
    + apply blend_arith in E; [|cbn; eauto using sound_wf, sound_i_bits|cbn; split; eauto using sound_value, sound_i_in|auto].
      destruct E as [E [W [_ [R G]]]]. eapply denote_canonical; eauto.
  - inv_bind E. inv_bind E. destruct S as [A [B C]], N as [-> [N1 N2]]. right. split.
    + cbn. pose proof (terms_len _ s _ N2). lia.
    + apply blend_arith in E; [|cbn; eauto using sound_wf, sound_i_bits|cbn; split; eauto using sound_value, sound_i_in|auto].
      destruct E as [E [W [_ [R G]]]]. eapply denote_canonical; eauto.
Qed.

Theorem any_order : forall o ty ty' s s' op e e' r r', output_canonical o = true -> op = Plus \/ op = Multiplies ->
  only op e -> only op e' -> sound ty s e -> sound ty' s' e' -> Permutation (terms s e) (terms s' e') ->
  feval (denote o) ty s e = Ok r -> feval (denote o) ty' s' e' = Ok r' -> r = r'.
Proof.
  intros o ty ty' s s' op e e' r r' C O N N' S S' P E E'.
  destruct (terms_cases o ty s op e r C N S E) as [T|[L K]], (terms_cases o ty' s' op e' r' C N' S' E') as [T'|[L' K']].
  - rewrite T, T' in P. apply Permutation_length_1 in P. congruence.
  - rewrite T in P. apply Permutation_length in P. cbn in P. lia.
  - rewrite T' in P. apply Permutation_length in P. cbn in P. lia.
  - apply canonical_unique; auto.
    rewrite (terms_value o ty s op e r), (terms_value o ty' s' op e' r'); auto. now apply totals_perm.
Qed.

(** All types signed. *)
Lemma signed_sound : forall ty s e, typed_store ty s -> static_f e -> sound ty s e /\ signed_rep (ftype ty e).
Proof.
  assert (I : forall ty s i, typed_store ty s -> static_i i -> sound_i ty s i /\ signed_rep (itype ty i)).
  { intros ty s [t z|x|x|x] T S; cbn in *; try (split; [apply T|apply T]). destruct S as [S J]. split; [split; auto|auto].
    destruct S as [S _]. unfold wf_rep in S. lia. }
  assert (J : forall a b, signed_rep a -> signed_rep b -> signed_rep (common_rep a b)).
  { intros a b A B. now destruct (common_signed a b A B). }
  intros ty s e T. induction e as [x|t v|i|e IH|e IH|e IH|e IH|op l IHl v IHr|op l IHl i|op i v IHr]; cbn [static_f sound ftype]; intros S.
  - destruct (T x) as [[A B] C]. split; [split|split]; auto.
  - destruct S as [[A B] C]. split; [split|split]; auto.
  - destruct (I ty s i T S) as [A B]. split; [split; [auto|apply B]|auto].
  - auto.
  - destruct (IH S) as [A B]. split; [split; [auto|apply B]|auto].
  - destruct (IH S) as [A B]. split; [split; [auto|apply B]|auto].
  - destruct (IH S) as [A B]. split; [split; [auto|apply B]|auto].
  - destruct S as [S1 S2]. destruct (IHl S1) as [A B], (IHr S2) as [C D]. pose proof (J _ _ B D) as X. repeat split; auto; apply X.
  - destruct S as [S1 S2]. destruct (IHl S1) as [A B], (I ty s i T S2) as [C D]. pose proof (J _ _ B D) as X. repeat split; auto; apply X.
  - destruct S as [S1 S2]. destruct (IHr S2) as [A B], (I ty s i T S1) as [C D]. pose proof (J _ _ D B) as X. repeat split; auto; apply X.
Qed.
