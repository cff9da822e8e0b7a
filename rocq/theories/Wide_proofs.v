(** A signed representation computes whatever a narrower one computes without
    undefined behaviour. *)

From Coq Require Import ZArith QArith List Bool Lia.
From Verif Require Import Machine Raw Ops Spec Fraction Fmath Mixed Mixed_spec Chrono Chrono_spec Chrono2 Parse Program Sums.
From Verif Require Import MixDef_spec Wide_spec.
From Verif Require Import Machine_proofs Value_proofs Ops_proofs Cmp_proofs Order_proofs Fraction_proofs Fmath_proofs Fmath2_proofs
  Mixed_proofs Program_spec Program_proofs Program3_proofs MixDef_proofs Parse_spec Parse_proofs Parse2_proofs.
Import ListNotations.
Open Scope Z_scope.

Lemma wide_range : forall t u, wider t u -> rmin u <= rmin t /\ rmax t <= rmax u.
Proof.
  intros t u [[W S] [[W' S'] L]]. unfold rmin, rmax, wf_rep in *. rewrite S, S'.
  pose proof (Z.pow_le_mono_r 2 (rbits t - 1) (rbits u - 1) ltac:(lia) ltac:(lia)). lia.
Qed.
Lemma wide_in : forall t u v, wider t u -> in_rep t v = true -> in_rep u v = true.
Proof. intros t u v H I. apply wide_range in H. apply in_rep_iff in I. apply in_rep_iff. lia. Qed.
Lemma wide_raw : forall t u v, wider t u -> wf_raw t v -> wf_raw u v.
Proof. intros t u v H [A B]. split; eapply wide_in; eauto. Qed.

Lemma x_arith : forall t u v r, wider t u -> arith t v = Ok r -> arith u v = Ok r.
Proof.
  intros t u v r H E. pose proof H as [[W S] [[W' S'] L]]. apply arith_signed in E as [-> I]; auto.
  apply arith_in; auto. eapply wide_in; eauto.
Qed.
Lemma x_mul : forall t u a b r, wider t u -> m_mul t a b = Ok r -> m_mul u a b = Ok r.
Proof. intros. eapply x_arith; eauto. Qed.
Lemma x_add : forall t u a b r, wider t u -> m_add t a b = Ok r -> m_add u a b = Ok r.
Proof. intros. eapply x_arith; eauto. Qed.
Lemma x_sub : forall t u a b r, wider t u -> m_sub t a b = Ok r -> m_sub u a b = Ok r.
Proof. intros. eapply x_arith; eauto. Qed.
Lemma x_neg : forall t u a r, wider t u -> m_neg t a = Ok r -> m_neg u a = Ok r.
Proof. intros. eapply x_arith; eauto. Qed.
Lemma x_div : forall t u a b r, wider t u -> m_div t a b = Ok r -> m_div u a b = Ok r.
Proof. intros t u a b r H E. unfold m_div in *. destruct (b =? 0); [discriminate|]. eapply x_arith; eauto. Qed.
Lemma x_rem : forall t u a b r, wider t u -> m_rem t a b = Ok r -> m_rem u a b = Ok r.
Proof.
  intros t u a b r H E. unfold m_rem in *. destruct (b =? 0); [discriminate|]. inv_bind E.
  apply (x_arith t u) in E0; auto. now rewrite E0.
Qed.
Lemma x_gcd : forall t u a b r, wider t u -> std_gcd t a b = Ok r -> std_gcd u a b = Ok r.
Proof.
  intros t u a b r H E. apply std_gcd_ok in E as [-> [A B]].
  unfold std_gcd. now rewrite (wide_in t u _ H A), (wide_in t u _ H B).
Qed.
Lemma x_lcm : forall t u a b r, wider t u -> std_lcm t a b = Ok r -> std_lcm u a b = Ok r.
Proof.
  intros t u a b r H E. apply std_lcm_ok in E as [-> [A [B C]]].
  unfold std_lcm. now rewrite (wide_in t u _ H A), (wide_in t u _ H B), (wide_in t u _ H C).
Qed.

Ltac x_step H :=
  match goal with
  | E : std_lcm _ ?a ?b = Ok _ |- context [std_lcm _ ?a ?b] => rewrite (x_lcm _ _ _ _ _ H E)
  | E : std_gcd _ ?a ?b = Ok _ |- context [std_gcd _ ?a ?b] => rewrite (x_gcd _ _ _ _ _ H E)
  | E : m_mul _ ?a ?b = Ok _ |- context [m_mul _ ?a ?b] => rewrite (x_mul _ _ _ _ _ H E)
  | E : m_add _ ?a ?b = Ok _ |- context [m_add _ ?a ?b] => rewrite (x_add _ _ _ _ _ H E)
  | E : m_sub _ ?a ?b = Ok _ |- context [m_sub _ ?a ?b] => rewrite (x_sub _ _ _ _ _ H E)
  | E : m_div _ ?a ?b = Ok _ |- context [m_div _ ?a ?b] => rewrite (x_div _ _ _ _ _ H E)
  | E : m_rem _ ?a ?b = Ok _ |- context [m_rem _ ?a ?b] => rewrite (x_rem _ _ _ _ _ H E)
  | E : m_neg _ ?a = Ok _ |- context [m_neg _ ?a] => rewrite (x_neg _ _ _ _ H E)
  end; cbn [bind].

Lemma x_reduce_ignore : forall t u v r, wider t u -> reduce_ignore_signs t v = Ok r -> reduce_ignore_signs u v = Ok r.
Proof.
  intros t u v r H E. unfold reduce_ignore_signs in *. destruct (is_undefined v); [auto|].
  inv_all. now repeat x_step H.
Qed.
Lemma x_normalize : forall t u v r, wider t u -> normalize_signs t v = Ok r -> normalize_signs u v = Ok r.
Proof.
  intros t u v r H E. unfold normalize_signs in *. destruct (den v >? 0); [auto|]. inv_all. now repeat x_step H.
Qed.
Lemma x_reduce : forall t u v m r, wider t u -> reduce t v m = Ok r -> reduce u v m = Ok r.
Proof.
  intros t u v [|] r H E; cbn [reduce] in *; [|eapply x_reduce_ignore; eauto].
  unfold reduce_normalize_signs in *. inv_bind E. apply (x_reduce_ignore t u) in E0; auto. rewrite E0. cbn [bind].
  eapply x_normalize; eauto.
Qed.
Lemma x_reduce_args : forall t u a m b, wider t u -> reduce_args t a m = Ok b -> reduce_args u a m = Ok b.
Proof.
  intros t u [l r|l z|z r] m b H E; cbn [reduce_args] in *; inv_all;
    repeat match goal with X : reduce t _ _ = Ok _ |- _ => apply (x_reduce t u) in X; [rewrite X; cbn [bind]|exact H]; clear X end;
    reflexivity.
Qed.

Lemma x_arith_base : forall p t u op a r, p = safe \/ p = fast -> wider t u ->
  p_arith p t op a = Ok r -> p_arith p u op a = Ok r.
Proof.
  intros p t u op a r P H E.
  destruct a as [l r'|l z|z r']; destruct P as [-> | ->]; destruct op;
    match goal with |- ?X => enough X by assumption; remember X as GG eqn:GE end;
    unfold_policy GE; unfold_policy E; subst GG; inv_all; repeat x_step H; reflexivity.
Qed.
Theorem x_p_arith : forall o t u op a r, wider t u -> p_arith (denote o) t op a = Ok r -> p_arith (denote o) u op a = Ok r.
Proof.
  induction o as [| |o IH m|o IH m]; cbn [denote]; intros t u op a r H E;
    [exact (x_arith_base safe t u op a r (or_introl eq_refl) H E)|exact (x_arith_base fast t u op a r (or_intror eq_refl) H E)| |].
  - rewrite ri_arith_eq in *. inv_bind E. apply (x_reduce_args t u) in E0; auto. rewrite E0. cbn [bind]. eapply IH; eauto.
  - rewrite ro_arith_eq in *. inv_bind E. apply (IH t u) in E0; auto. rewrite E0. cbn [bind]. eapply x_reduce; eauto.
Qed.

Lemma x_cmp_base : forall p t u op a b, p = safe \/ p = fast -> wider t u ->
  p_cmp p t op a = Ok b -> p_cmp p u op a = Ok b.
Proof.
  intros p t u op a b P H E.
  destruct a as [l r'|l z|z r']; destruct P as [-> | ->]; destruct op;
    match goal with |- ?X => enough X by assumption; remember X as GG eqn:GE end;
    unfold_cmp GE; unfold_cmp E; subst GG;
    try match goal with |- context [is_undefined ?x || is_undefined ?y] => destruct (is_undefined x || is_undefined y) end;
    inv_all; repeat x_step H; reflexivity.
Qed.
Theorem x_p_cmp : forall o t u op a b, wider t u -> p_cmp (denote o) t op a = Ok b -> p_cmp (denote o) u op a = Ok b.
Proof.
  induction o as [| |o IH m|o IH m]; cbn [denote]; intros t u op a b H E;
    [exact (x_cmp_base safe t u op a b (or_introl eq_refl) H E)|exact (x_cmp_base fast t u op a b (or_intror eq_refl) H E)| |].
  - rewrite ri_cmp_eq in *. inv_bind E. apply (x_reduce_args t u) in E0; auto. rewrite E0. cbn [bind]. eapply IH; eauto.
  - rewrite ro_cmp_eq in *. eapply IH; eauto.
Qed.

Theorem x_p_negate : forall o t u v r, wider t u -> p_negate (denote o) t v = Ok r -> p_negate (denote o) u v = Ok r.
Proof.
  induction o as [| |o IH m|o IH m]; cbn [denote]; intros t u v r H E.
  - cbn in *. unfold safe_negate in *. inv_all. now repeat x_step H.
  - cbn in *. unfold fast_negate in *. inv_all. now repeat x_step H.
  - cbn [p_negate reduced_input] in *. unfold ri_negate in *. inv_bind E. apply (x_reduce t u) in E0; auto. rewrite E0. cbn [bind].
    eapply IH; eauto.
  - cbn [p_negate reduced_output] in *. unfold ro_negate in *. inv_bind E. apply (IH t u) in E0; auto. rewrite E0. cbn [bind].
    eapply x_reduce; eauto.
Qed.

Lemma x_f_arith : forall o t u op a r, wider t u -> f_arith (denote o) t t op a = Ok r -> f_arith (denote o) u u op a = Ok r.
Proof. intros. rewrite f_arith_self in *. eapply x_p_arith; eauto. Qed.
Lemma x_f_cmp : forall o t u op a r, wider t u -> f_cmp (denote o) t t op a = Ok r -> f_cmp (denote o) u u op a = Ok r.
Proof. intros. rewrite f_cmp_self in *. eapply x_p_cmp; eauto. Qed.

(** ** Queries and mathematical functions *)

Lemma x_mu_abs : forall t u v r, wider t u -> mu_abs t v = Ok r -> mu_abs u v = Ok r.
Proof. intros t u v r H E. unfold mu_abs in *. destruct (v >=? 0); [auto|]. eapply x_neg; eauto. Qed.
Lemma x_is_proper : forall t u v b, wider t u -> is_proper t v = Ok b -> is_proper u v = Ok b.
Proof.
  intros t u v b H E. unfold is_proper in *. inv_bind E. inv_bind E.
  rewrite (x_mu_abs _ _ _ _ H E0). cbn [bind]. now rewrite (x_mu_abs _ _ _ _ H E1).
Qed.
Lemma x_is_improper : forall t u v b, wider t u -> is_improper t v = Ok b -> is_improper u v = Ok b.
Proof. intros t u v b H E. unfold is_improper in *. inv_bind E. now rewrite (x_is_proper _ _ _ _ H E0). Qed.
Lemma x_is_integer : forall t u v b, wider t u -> is_integer t v = Ok b -> is_integer u v = Ok b.
Proof. intros t u v b H E. unfold is_integer in *. destruct (is_defined v); [|auto]. inv_bind E. now rewrite (x_rem _ _ _ _ _ H E0). Qed.
Lemma x_is_unit : forall t u v b, wider t u -> is_unit_fraction t v = Ok b -> is_unit_fraction u v = Ok b.
Proof. intros t u v b H E. unfold is_unit_fraction in *. destruct (_ && _); [|auto]. inv_bind E. now rewrite (x_rem _ _ _ _ _ H E0). Qed.
Lemma x_is_reduced : forall t u v b, wider t u -> is_reduced t v = Ok b -> is_reduced u v = Ok b.
Proof.
  intros t u v b H E. unfold is_reduced, is_reduced_ignore_signs in *. destruct (_ || _); [|auto].
  destruct (is_defined v); [|auto]. inv_bind E. now rewrite (x_gcd _ _ _ _ _ H E0).
Qed.

Lemma x_abs : forall o t u v r, wider t u -> f_abs (denote o) t v = Ok r -> f_abs (denote o) u v = Ok r.
Proof. intros o t u v r H E. unfold f_abs, f_negate in *. destruct (is_non_negative v); [auto|]. eapply x_p_negate; eauto. Qed.
Lemma x_trunc : forall t u v k, wider t u -> f_trunc t v = Ok k -> f_trunc u v = Ok k.
Proof. intros. eapply x_div; eauto. Qed.
Lemma x_ceil : forall t u v k, wider t u -> f_ceil t v = Ok k -> f_ceil u v = Ok k.
Proof.
  intros t u v k H E. unfold f_ceil in *. inv_bind E. inv_bind E. rewrite (x_trunc _ _ _ _ H E0). cbn [bind].
  rewrite (x_is_integer _ _ _ _ H E1). cbn [bind]. destruct (_ || _); [auto|]. eapply x_add; eauto.
Qed.
Lemma x_floor : forall t u v k, wider t u -> f_floor t v = Ok k -> f_floor u v = Ok k.
Proof.
  intros t u v k H E. unfold f_floor in *. inv_bind E. inv_bind E. rewrite (x_trunc _ _ _ _ H E0). cbn [bind].
  rewrite (x_is_integer _ _ _ _ H E1). cbn [bind]. destruct (_ || _); [auto|]. eapply x_sub; eauto.
Qed.
Lemma x_round : forall o t u v k, wider t u -> f_round (denote o) t v = Ok k -> f_round (denote o) u v = Ok k.
Proof.
  intros o t u v k H E. unfold f_round in *. inv_bind E. rewrite (x_floor _ _ _ _ H E0). cbn [bind].
  inv_bind E. rewrite (x_f_arith _ _ _ _ _ _ H E1). cbn [bind]. inv_bind E. rewrite (x_f_cmp _ _ _ _ _ _ H E2). cbn [bind].
  destruct a1; [auto|]. eapply x_add; eauto.
Qed.
Theorem x_to_whole : forall o t u v m k, wider t u -> f_to_whole (denote o) t v m = Ok k -> f_to_whole (denote o) u v m = Ok k.
Proof.
  intros o t u v [] k H E; cbn [f_to_whole] in *;
    [eapply x_trunc|eapply x_ceil|eapply x_floor|eapply x_round]; eauto.
Qed.
Theorem x_redenominate : forall o t u v d m r, wider t u ->
  f_redenominate (denote o) t v d m = Ok r -> f_redenominate (denote o) u v d m = Ok r.
Proof.
  intros o t u v d m r H E. destruct m; cbn [f_redenominate] in *;
    unfold f_trunc_redenominate, f_ceil_redenominate, f_floor_redenominate, f_round_redenominate in *;
    try (destruct (d >=? 0)); inv_all;
    repeat match goal with
    | X : f_arith _ _ _ _ _ = Ok _ |- _ => apply (x_f_arith o t u) in X; [rewrite X; clear X; cbn [bind]|exact H]
    | X : f_trunc _ _ = Ok _ |- _ => apply (x_trunc t u) in X; [rewrite X; clear X; cbn [bind]|exact H]
    | X : f_ceil _ _ = Ok _ |- _ => apply (x_ceil t u) in X; [rewrite X; clear X; cbn [bind]|exact H]
    | X : f_floor _ _ = Ok _ |- _ => apply (x_floor t u) in X; [rewrite X; clear X; cbn [bind]|exact H]
    | X : f_round _ _ _ = Ok _ |- _ => apply (x_round o t u) in X; [rewrite X; clear X; cbn [bind]|exact H]
    | _ => x_step H
    end; reflexivity.
Qed.

Lemma x_pow_fuel : forall t u, wider t u -> forall f f' b e r, (f <= f')%nat ->
  mu_pow_fuel f t b e = Ok r -> mu_pow_fuel f' u b e = Ok r.
Proof.
  intros t u H. induction f as [|f IH]; intros f' b e r L E; [discriminate|].
  destruct f' as [|f']; [lia|]. cbn [mu_pow_fuel] in *. destruct (e =? 0); [auto|].
  inv_bind E. rewrite (x_rem _ _ _ _ _ H E0). cbn [bind]. destruct (a =? 1).
  - inv_bind E. rewrite (x_sub _ _ _ _ _ H E1). cbn [bind]. inv_bind E. rewrite (IH f' _ _ _ ltac:(lia) E2). cbn [bind].
    eapply x_mul; eauto.
  - inv_bind E. rewrite (x_div _ _ _ _ _ H E1). cbn [bind]. inv_bind E. rewrite (IH f' _ _ _ ltac:(lia) E2). cbn [bind].
    eapply x_mul; eauto.
Qed.
Lemma x_mu_pow : forall t u b e r, wider t u -> mu_pow t b e = Ok r -> mu_pow u b e = Ok r.
Proof. intros t u b e r H E. eapply x_pow_fuel; [exact H| |exact E]. destruct H as [_ [_ L]]. lia. Qed.

Theorem x_pow : forall t u b e r, wider t u -> in_rep int32 e = true -> f_pow t b e = Ok r -> f_pow u b e = Ok r.
Proof.
  intros t u b e r H I E. pose proof H as [[W S] [[W' S'] L]]. unfold f_pow in *.
  apply in_rep_iff in I. change (rmin int32) with (-2147483648) in I. change (rmax int32) with 2147483647 in I.
  destruct (Z.geb_spec e 0).
  - destruct (int_cast t e W) as [C _]; [lia|]. destruct (int_cast u e W') as [C' _]; [lia|]. rewrite C in E. rewrite C'.
    inv_bind E. now rewrite (x_mu_pow _ _ _ _ _ H E0).
  - inv_bind E. pose proof E0 as G. apply arith_signed in G as [-> J]; [|reflexivity].
    apply in_rep_iff in J. change (rmin int32) with (-2147483648) in J. change (rmax int32) with 2147483647 in J.
    cbn [bind].
    destruct (int_cast t (- e) W) as [C _]; [lia|]. destruct (int_cast u (- e) W') as [C' _]; [lia|]. rewrite C in *. rewrite C'.
    inv_bind E. now rewrite (x_mu_pow _ _ _ _ _ H E1).
Qed.

(** ** Expressions over one type, literals *)

Theorem x_eval : forall o t u e v, wider t u -> eval (denote o) t e = Ok v -> eval (denote o) u e = Ok v.
Proof.
  intros o t u e v H. revert v. induction e as [r|e IH|e IH|op l IHl r IHr|op l IHl z|op z r IHr]; cbn [eval]; intros v E.
  - auto.
  - inv_bind E. now rewrite (IH _ eq_refl).
  - inv_bind E. rewrite (IH _ eq_refl). cbn [bind]. eapply x_p_negate; eauto.
  - inv_bind E. inv_bind E. rewrite (IHl _ eq_refl), (IHr _ eq_refl). cbn [bind]. eapply x_f_arith; eauto.
  - inv_bind E. rewrite (IHl _ eq_refl). cbn [bind]. eapply x_f_arith; eauto.
  - inv_bind E. rewrite (IHr _ eq_refl). cbn [bind]. eapply x_f_arith; eauto.
Qed.

Theorem x_string : forall o t u s r, wider t u -> Z.of_nat (length s) <= 2147483647 ->
  string_to_fraction (denote o) t s = Ok r -> string_to_fraction (denote o) u s = Ok r.
Proof.
  intros o t u s r H L E. pose proof H as [[W S] [[W' S'] B]]. unfold string_to_fraction in *.
  assert (SM : small s) by (unfold small, sv_size; lia).
  rewrite scan_eq in * by auto. cbn [bind] in *. destruct (scan_fun s) as [sc|] eqn:SC; [|auto].
  destruct (scan_sound s sc SC) as [l [V [-> [P PR]]]].
  pose proof P as [PB [PW [PF _]]]. rewrite PB, PW, PF, PR in E |- *. rewrite (base_cast t l W) in E. rewrite (base_cast u l W').
  pose proof V as [_ [VW [VF _]]].
  assert (LF : Z.of_nat (length (l_fraction l)) <= 2147483647).
  { unfold spell in L. rewrite !app_length in L. lia. }
  rewrite (count_digits_spec (l_base l)) in E |- * by (auto; now apply empty_or_chars).
  pose proof (num_digits_nonneg (l_fraction l)) as NN.
  assert (NL : num_digits (l_fraction l) <= Z.of_nat (length (l_fraction l))).
  { unfold num_digits. generalize (l_fraction l). clear. induction l as [|c s IH]; cbn; [lia|].
    destruct (digit_value c); cbn [length]; lia. }
  destruct (int_cast t (num_digits (l_fraction l)) W ltac:(lia)) as [C1 _]. rewrite C1 in E.
  destruct (int_cast u (num_digits (l_fraction l)) W' ltac:(lia)) as [C2 _]. rewrite C2.
  assert (D : forall q x, empty_or (digit_seq (l_base l)) q -> digit_sequence_to_int t q (l_base l) = Ok x ->
                digit_sequence_to_int u q (l_base l) = Ok x).
  { intros q x Q X. apply to_int_ok in X as [-> [_ X]]; auto; [|apply l_base_ok].
    apply (to_int_total u _ _ (rmax t)); auto; [apply l_base_ok|]. apply wide_range in H. lia. }
  inv_bind E. rewrite (D _ _ VW E0). cbn [bind]. rewrite (D _ _ VF E1). cbn [bind].
  rewrite (x_mu_pow _ _ _ _ _ H E2). cbn [bind]. rewrite ?E3, ?E4. cbn [bind].
  rewrite (x_f_arith _ _ _ _ _ _ H E5). cbn [bind]. 
  destruct (scale_ok l sc a3 V P) as [-> XB]; [rewrite E3; exact E4|].
  rewrite (x_pow t u _ _ _ H) with (2 := E6); [cbn [bind]; eapply x_f_arith; eauto|].
  apply in_rep_iff. change (rmin int32) with (-2147483648). change (rmax int32) with 2147483647. lia.
Qed.

(** ** Mixed numbers *)

Lemma conv_same : forall t v, conv_raw t t v = v.
Proof. intros t v. unfold conv_raw. now rewrite rep_eqb_refl. Qed.
Lemma conv_int_same : forall t z, conv_int t t z = z.
Proof. intros t v. unfold conv_int. now rewrite rep_eqb_refl. Qed.
Lemma cast_fits : forall t u z, wider t u -> in_rep t z = true -> cast t z = z /\ cast u z = z.
Proof.
  intros t u z H I. pose proof (wide_in _ _ _ H I) as J. destruct H as [[W _] [[W' _] _]].
  unfold cast. split; now apply wrap_id.
Qed.

Lemma x_make : forall o t u w f m, wider t u -> mixed_make (denote o) t t w f = Ok m -> mixed_make (denote o) u u w f = Ok m.
Proof.
  intros o t u w f m H E. pose proof H as [[W S] [[W' S'] B]]. unfold mixed_make, mixed_fix in *. inv_bind E.
  assert (G : fix_improper (denote o) u u (mkMixed w f) = Ok a).
  { clear E. unfold fix_improper in *. inv_bind E0. rewrite (x_is_improper _ _ _ _ H E). cbn [bind]. destruct a0; [|auto].
    inv_bind E0. pose proof (f_trunc_in _ _ _ W E1) as I. destruct (cast_fits t u _ H I) as [C C'].
    rewrite (x_trunc _ _ _ _ H E1). cbn [bind]. rewrite C in E2. rewrite C', (x_add _ _ _ _ _ H E2). cbn [bind].
    cbn [f_assign] in *. rewrite conv_int_same in *. rewrite (x_f_arith _ _ _ _ _ _ H E3). exact E0. }
  rewrite G. cbn [bind]. unfold fix_signs in *. destruct (_ && _).
  - inv_bind E. rewrite (x_sub _ _ _ _ _ H E1). cbn [bind]. now rewrite (x_f_arith _ _ _ _ _ _ H E2).
  - destruct (_ && _); [|auto]. inv_bind E. rewrite (x_add _ _ _ _ _ H E1). cbn [bind].
    rewrite (x_neg _ _ _ _ H E2). cbn [bind]. now rewrite (x_f_arith _ _ _ _ _ _ H E3).
Qed.
Lemma x_of_fraction : forall o t u v m, wider t u ->
  mixed_of_fraction (denote o) t t t v = Ok m -> mixed_of_fraction (denote o) u u u v = Ok m.
Proof.
  intros o t u v m H E. pose proof H as [[W S] [[W' S'] B]]. unfold mixed_of_fraction, f_convert in *. inv_bind E.
  rewrite (x_trunc _ _ _ _ H E0). cbn [bind]. pose proof (f_trunc_in _ _ _ W E0) as I.
  destruct (cast_fits t u _ H I) as [C C']. rewrite ?C, ?C' in *. rewrite ?C, ?C' in *.
  rewrite (x_f_arith _ _ _ _ _ _ H E1). cbn [bind]. now rewrite conv_same in *.
Qed.
Lemma x_as_fraction : forall o t u m r, wider t u -> in_rep t (whole m) = true ->
  mixed_as_fraction (denote o) t t m = Ok r -> mixed_as_fraction (denote o) u u m = Ok r.
Proof.
  intros o t u m r H I E. unfold mixed_as_fraction, f_convert in *. rewrite common_self in *.
  destruct (cast_fits t u _ H I) as [C C']. rewrite C in E. rewrite C'. rewrite conv_same in *. eapply x_f_arith; eauto.
Qed.
Lemma x_mixed_plus : forall o t u l r m, wider t u -> in_rep t (whole l) = true -> in_rep t (whole r) = true ->
  mixed_plus (denote o) t t t t l r = Ok m -> mixed_plus (denote o) u u u u l r = Ok m.
Proof.
  intros o t u l r m H I J E. unfold mixed_plus, f_convert in *. rewrite !common_self in *.
  destruct (cast_fits t u _ H I) as [C C']. destruct (cast_fits t u _ H J) as [D D'].
  rewrite C, D in E. rewrite C', D'. rewrite !conv_same in *. inv_bind E.
  rewrite (x_add _ _ _ _ _ H E0). cbn [bind]. rewrite (x_f_arith _ _ _ _ _ _ H E1). cbn [bind]. eapply x_make; eauto.
Qed.
Lemma x_mixed_plus_whole : forall o t u l z m, wider t u -> in_rep t (whole l) = true -> in_rep t z = true ->
  mixed_plus_whole (denote o) t t t l z = Ok m -> mixed_plus_whole (denote o) u u u l z = Ok m.
Proof.
  intros o t u l z m H I J E. unfold mixed_plus_whole in *. rewrite !common_self in *.
  destruct (cast_fits t u _ H I) as [C C']. destruct (cast_fits t u _ H J) as [D D'].
  rewrite C, D in E. rewrite C', D'. inv_bind E.
  rewrite (x_add _ _ _ _ _ H E0). cbn [bind]. eapply x_make; eauto.
Qed.

Lemma retype_type : forall t u e, typed t e -> mtype (retype u e) = (u, u).
Proof.
  intros t u e. induction e; cbn [typed retype mtype]; intros T; auto;
    try (now rewrite IHe by tauto); try (rewrite IHe by tauto; cbn; now rewrite common_self).
  rewrite IHe1, IHe2 by tauto. cbn. now rewrite common_self.
Qed.
Lemma meval_whole_in : forall o t e m, signed_rep t -> typed t e -> meval (denote o) e = Ok m -> in_rep t (whole m) = true.
Proof.
  intros o t e m SR T E. destruct (typed_wf t e SR T) as [WF TY].
  pose proof (meval_exact o e m WF E) as [A _]. rewrite TY in A. apply A.
Qed.
Theorem x_meval : forall o t u e m, wider t u -> typed t e -> meval (denote o) e = Ok m -> meval (denote o) (retype u e) = Ok m.
Proof.
  intros o t u e m H. pose proof H as [SR _]. revert m.
  induction e as [tw tf w f|s f|e IH|e IH|l IHl r IHr|e IH s f|s f e IH|e IH s z|s z e IH];
    cbn [meval retype]; intros m T E.
  - destruct T as [-> [-> T]]. eapply x_make; eauto.
  - destruct T as [-> T]. eapply x_of_fraction; eauto.
  - inv_bind E. cbn in T. now rewrite (IH a).
  - inv_bind E. cbn in T. destruct (typed_wf t e SR T) as [WF TY]. rewrite TY in E. rewrite (retype_type t u e T).
    rewrite (IH a) by auto. cbn [bind fst snd] in *. unfold mixed_negate in *. inv_bind E.
    rewrite (x_neg _ _ _ _ H E1). cbn [bind]. unfold f_negate in *. rewrite (x_p_negate _ _ _ _ _ H E2). cbn [bind]. eapply x_make; eauto.
  - inv_bind E. cbn in T. destruct T as [T1 T2]. destruct (typed_wf t l SR T1) as [WF1 TY1]. destruct (typed_wf t r SR T2) as [WF2 TY2].
    rewrite TY1, TY2 in E. rewrite (retype_type t u l T1), (retype_type t u r T2).
    rewrite (IHl a), (IHr a0) by auto. cbn [bind fst snd] in *.
    apply (x_mixed_plus o t u); auto; [exact (meval_whole_in o t l a SR T1 E0)|exact (meval_whole_in o t r a0 SR T2 E1)].
  - inv_bind E. cbn in T. destruct T as [T [-> F]]. destruct (typed_wf t e SR T) as [WF TY]. rewrite TY in E. rewrite (retype_type t u e T).
    rewrite (IH a) by auto. cbn [bind fst snd] in *. unfold mixed_plus_fraction in *. inv_bind E.
    rewrite (x_of_fraction _ _ _ _ _ H E1). cbn [bind].
    eapply x_mixed_plus; eauto; [eapply meval_whole_in; eauto|].
    apply (meval_whole_in o t (MOfFraction t f)); auto. cbn. auto.
  - inv_bind E. cbn in T. destruct T as [T [-> F]]. destruct (typed_wf t e SR T) as [WF TY]. rewrite TY in E. rewrite (retype_type t u e T).
    rewrite (IH a) by auto. cbn [bind fst snd] in *. unfold fraction_plus_mixed, mixed_plus_fraction in *. inv_bind E.
    rewrite (x_of_fraction _ _ _ _ _ H E1). cbn [bind].
    eapply x_mixed_plus; eauto; [eapply meval_whole_in; eauto|].
    apply (meval_whole_in o t (MOfFraction t f)); auto. cbn. auto.
  - inv_bind E. cbn in T. destruct T as [T [-> F]]. destruct (typed_wf t e SR T) as [WF TY]. rewrite TY in E. rewrite (retype_type t u e T).
    rewrite (IH a) by auto. cbn [bind fst snd] in *.
    eapply x_mixed_plus_whole; eauto. eapply meval_whole_in; eauto.
  - inv_bind E. cbn in T. destruct T as [T [-> F]]. destruct (typed_wf t e SR T) as [WF TY]. rewrite TY in E. rewrite (retype_type t u e T).
    rewrite (IH a) by auto. cbn [bind fst snd] in *. unfold whole_plus_mixed in *.
    eapply x_mixed_plus_whole; eauto. eapply meval_whole_in; eauto.
Qed.

(** ** Programs *)

Lemma wider_refl : forall t, signed_rep t -> wider t t.
Proof. intros t S. split; [auto|split; [auto|lia]]. Qed.
Lemma wider_common : forall a b a' b', wider a a' -> wider b b' -> wider (common_rep a b) (common_rep a' b').
Proof.
  intros a b a' b' [A [A' LA]] [B [B' LB]]. split; [apply common_signed; auto|]. split; [apply common_signed; auto|].
  destruct A as [_ A], A' as [_ A'], B as [_ B], B' as [_ B']. unfold common_rep. rewrite A, A', B, B'. cbn [Bool.eqb].
  destruct (Z.ltb_spec (rbits a) (rbits b)); destruct (Z.ltb_spec (rbits a') (rbits b')); lia.
Qed.
Lemma wider_i : forall ty ty' i, wider_all ty ty' -> static_i i -> wider (itype ty i) (itype ty' i).
Proof. intros ty ty' [t z|x|x|x] W S; cbn in *; try apply W. apply wider_refl; tauto. Qed.
Lemma wider_f : forall ty ty' e, wider_all ty ty' -> static_f e -> wider (ftype ty e) (ftype ty' e).
Proof.
  intros ty ty' e W. induction e; cbn; intros S; auto.
  - apply wider_refl; tauto.
  - now apply wider_i.
  - apply wider_common; tauto.
  - apply wider_common; [tauto|]. apply wider_i; tauto.
  - apply wider_common; [|tauto]. apply wider_i; tauto.
Qed.

Lemma x_ieval : forall ty ty' s i z, wider_all ty ty' -> typed_store ty s -> static_i i -> ieval ty s i = Ok z ->
  in_rep (itype ty i) z = true /\ ieval ty' s i = Ok z.
Proof.
  intros ty ty' s [t k|x|x|x] z W T S E; cbn in *.
  - inversion E; subst. split; [tauto|auto].
  - inversion E; subst. split; [apply T|auto].
  - inversion E; subst. split; [apply T|auto].
  - split; [eapply f_trunc_in; eauto; apply T|]. eapply x_trunc; eauto.
Qed.

(** Conversions of operands to a common type are the identity on both sides. *)
Lemma conv_both : forall a a' c c' v, wider a a' -> wider c c' -> rbits a <= rbits c -> wf_raw a v ->
  conv_raw a c v = v /\ conv_raw a' c' v = v /\ wf_raw c v.
Proof.
  intros a a' c c' v A C L F. pose proof A as [Sa [Sa' _]]. pose proof C as [Sc [Sc' _]].
  destruct (conv_wide a c v) as [E G]; auto.
  split; auto. split; auto. apply conv_raw_id; [apply Sc'|]. eapply wide_raw; eauto.
Qed.
Lemma conv_int_both : forall a a' c c' v, wider a a' -> wider c c' -> rbits a <= rbits c -> in_rep a v = true ->
  conv_int a c v = v /\ conv_int a' c' v = v /\ in_rep c v = true.
Proof.
  intros a a' c c' v A C L F. pose proof A as [Sa [Sa' _]]. pose proof C as [Sc [Sc' _]].
  assert (G : in_rep c v = true) by exact (value_in_width _ _ _ Sa Sc L F).
  assert (G' : in_rep c' v = true) by (eapply wide_in; eauto).
  split; [apply conv_int_id; auto; apply Sc|]. split; [apply conv_int_id; auto; apply Sc'|auto].
Qed.

Lemma common_both : forall a b a' b', wider a a' -> wider b b' ->
  wider (common_rep a b) (common_rep a' b') /\ rbits a <= rbits (common_rep a b) /\ rbits b <= rbits (common_rep a b).
Proof.
  intros a b a' b' A B. split; [now apply wider_common|]. destruct A as [A [A' _]], B as [B [B' _]].
  destruct (common_signed a b) as [_ [? ?]]; auto.
Qed.
Definition args_of (a b : rep) (x : args) : Prop :=
  match x with
  | RR l r => wf_raw a l /\ wf_raw b r
  | RI l z => wf_raw a l /\ in_rep b z = true
  | IR z r => in_rep a z = true /\ wf_raw b r
  end.
Lemma common_args_both : forall a b a' b' x, wider a a' -> wider b b' -> args_of a b x ->
  common_args a b x = x /\ common_args a' b' x = x /\ wf_args (common_rep a b) x.
Proof.
  intros a b a' b' x A B F. destruct (common_both _ _ _ _ A B) as [C [L1 L2]].
  destruct x as [l r|l z|z r]; cbn in F |- *; destruct F as [F G].
  - destruct (conv_both _ _ _ _ _ A C L1 F) as [-> [-> ?]]. destruct (conv_both _ _ _ _ _ B C L2 G) as [-> [-> ?]]. auto.
  - destruct (conv_both _ _ _ _ _ A C L1 F) as [-> [-> ?]]. destruct (conv_int_both _ _ _ _ _ B C L2 G) as [-> [-> ?]]. auto.
  - destruct (conv_int_both _ _ _ _ _ A C L1 F) as [-> [-> ?]]. destruct (conv_both _ _ _ _ _ B C L2 G) as [-> [-> ?]]. auto.
Qed.
Lemma x_arith2 : forall o a b a' b' op x r, wider a a' -> wider b b' -> args_of a b x ->
  f_arith (denote o) a b op x = Ok r -> f_arith (denote o) a' b' op x = Ok r /\ wf_raw (common_rep a b) r.
Proof.
  intros o a b a' b' op x r A B F E. destruct (common_args_both _ _ _ _ _ A B F) as [C [C' G]].
  unfold f_arith in *. rewrite C in E. rewrite C'. pose proof (wider_common _ _ _ _ A B) as WC.
  split; [eapply x_p_arith; eauto|]. eapply arith_wf; eauto. apply WC.
Qed.
Lemma x_cmp2 : forall o a b a' b' op x r, wider a a' -> wider b b' -> args_of a b x ->
  f_cmp (denote o) a b op x = Ok r -> f_cmp (denote o) a' b' op x = Ok r.
Proof.
  intros o a b a' b' op x r A B F E. destruct (common_args_both _ _ _ _ _ A B F) as [C [C' G]].
  unfold f_cmp in *. rewrite C in E. rewrite C'. pose proof (wider_common _ _ _ _ A B) as WC. eapply x_p_cmp; eauto.
Qed.

Lemma x_feval : forall o ty ty' s e v, wider_all ty ty' -> typed_store ty s -> static_f e -> feval (denote o) ty s e = Ok v ->
  wf_raw (ftype ty e) v /\ feval (denote o) ty' s e = Ok v.
Proof.
  intros o ty ty' s e v W T. revert v.
  induction e as [x|t r|i|e IH|e IH|e IH|e IH|op l IHl r IHr|op l IHl i|op i r IHr]; intros v S E; cbn in S, E |- *.
  - inversion E; subst. split; [apply T|auto].
  - inversion E; subst. tauto.
  - inv_bind E. inversion E; subst. destruct (x_ieval _ _ _ _ _ W T S E0) as [A ->]. split; [|auto].
    split; [auto|]. apply one_rep. apply (wider_i ty ty' i W S).
  - inv_bind E. inversion E; subst. destruct (IH a) as [A ->]; auto.
  - inv_bind E. destruct (IH a) as [A ->]; auto. pose proof (wider_f _ _ _ W S) as X. cbn [bind]. unfold f_negate in *.
    split; [eapply negate_wf; eauto; apply X|]. eapply x_p_negate; eauto.
  - inv_bind E. destruct (IH a) as [A ->]; auto. pose proof (wider_f _ _ _ W S) as X. cbn [bind].
    split; [|eapply x_abs; eauto]. unfold f_abs, f_negate in E. destruct (is_non_negative a); [inversion E; now subst|].
    eapply negate_wf; eauto; apply X.
  - inv_bind E. destruct (IH a) as [A ->]; auto. pose proof (wider_f _ _ _ W S) as X. cbn [bind].
    split; [|apply (x_reduce _ _ _ normalize_signs_mode _ X E)].
    apply (reduce_spec _ _ normalize_signs_mode) in E as [G _]; auto. apply X.
  - inv_bind E. destruct S as [Sl Sr]. destruct (IHl a) as [A ->]; auto. destruct (IHr a0) as [B ->]; auto. cbn [bind].
    pose proof (wider_f _ _ _ W Sl) as X. pose proof (wider_f _ _ _ W Sr) as Y.
    destruct (x_arith2 o _ _ _ _ op (RR a a0) v X Y (conj A B) E). auto.
  - inv_bind E. destruct S as [Sl Si]. destruct (IHl a) as [A ->]; auto. destruct (x_ieval _ _ _ _ _ W T Si E1) as [B ->]. cbn [bind].
    pose proof (wider_f _ _ _ W Sl) as X. pose proof (wider_i _ _ _ W Si) as Y.
    destruct (x_arith2 o _ _ _ _ op (RI a a0) v X Y (conj A B) E). auto.
  - inv_bind E. destruct S as [Si Sr]. destruct (x_ieval _ _ _ _ _ W T Si E0) as [A ->]. destruct (IHr a0) as [B ->]; auto. cbn [bind].
    pose proof (wider_i _ _ _ W Si) as X. pose proof (wider_f _ _ _ W Sr) as Y.
    destruct (x_arith2 o _ _ _ _ op (IR a a0) v X Y (conj A B) E). auto.
Qed.

Lemma x_beval : forall o ty ty' s b v, wider_all ty ty' -> typed_store ty s -> static_b b -> beval (denote o) ty s b = Ok v ->
  beval (denote o) ty' s b = Ok v.
Proof.
  intros o ty ty' s b v W T. revert v.
  induction b as [op l r|op l i|op i r|b IH|a IHa b IHb|a IHa b IHb]; intros v S E; cbn in S, E |- *.
  - inv_bind E. destruct S as [Sl Sr]. destruct (x_feval _ _ _ _ _ _ W T Sl E0) as [A ->]. destruct (x_feval _ _ _ _ _ _ W T Sr E1) as [B ->].
    cbn [bind]. pose proof (wider_f _ _ _ W Sl) as X. pose proof (wider_f _ _ _ W Sr) as Y.
    exact (x_cmp2 o _ _ _ _ op (RR a a0) v X Y (conj A B) E).
  - inv_bind E. destruct S as [Sl Si]. destruct (x_feval _ _ _ _ _ _ W T Sl E0) as [A ->]. destruct (x_ieval _ _ _ _ _ W T Si E1) as [B ->].
    cbn [bind]. pose proof (wider_f _ _ _ W Sl) as X. pose proof (wider_i _ _ _ W Si) as Y.
    exact (x_cmp2 o _ _ _ _ op (RI a a0) v X Y (conj A B) E).
  - inv_bind E. destruct S as [Si Sr]. destruct (x_ieval _ _ _ _ _ W T Si E0) as [A ->]. destruct (x_feval _ _ _ _ _ _ W T Sr E1) as [B ->].
    cbn [bind]. pose proof (wider_i _ _ _ W Si) as X. pose proof (wider_f _ _ _ W Sr) as Y.
    exact (x_cmp2 o _ _ _ _ op (IR a a0) v X Y (conj A B) E).
  - inv_bind E. now rewrite (IH a).
  - inv_bind E. rewrite (IHa a0) by tauto. cbn [bind]. destruct a0; [|auto]. apply IHb; tauto.
  - inv_bind E. rewrite (IHa a0) by tauto. cbn [bind]. destruct a0; [auto|]. apply IHb; tauto.
Qed.

Lemma typed_write : forall ty s x v, typed_store ty s -> wf_raw (ty x) v -> typed_store ty (write s x v).
Proof.
  intros ty s x v T A y. split; [apply T|]. unfold write. destruct (Nat.eqb y x) eqn:E; [|apply T].
  apply Nat.eqb_eq in E. now subst.
Qed.

Theorem x_exec : forall o ty ty' fuel s c s', wider_all ty ty' -> typed_store ty s -> static_s ty c ->
  exec (denote o) ty fuel s c = Some (Ok s') -> typed_store ty s' /\ exec (denote o) ty' fuel s c = Some (Ok s').
Proof.
  intros o ty ty' fuel. induction fuel as [|fuel IH]; intros s c s' W T S E; [discriminate|].
  destruct c as [|x e|op x e|op x i|a b|b x y|b x]; cbn [exec] in E |- *; cbn in S.
  - inversion E; subst. auto.
  - destruct S as [S L]. destruct (feval (denote o) ty s e) as [v|] eqn:V; [|discriminate]. cbn [bind] in E.
    destruct (x_feval _ _ _ _ _ _ W T S V) as [A ->]. cbn [bind]. unfold f_convert in *.
    destruct (conv_both _ _ _ _ _ (wider_f _ _ _ W S) (W x) L A) as [C [C' G]]. rewrite C in E. rewrite C'.
    injection E as <-. split; [now apply typed_write|auto].
  - destruct S as [S L]. destruct (feval (denote o) ty s e) as [v|] eqn:V; [|discriminate]. cbn [bind] in E.
    destruct (x_feval _ _ _ _ _ _ W T S V) as [A ->]. cbn [bind]. cbn [f_assign] in *.
    destruct (conv_both _ _ _ _ _ (wider_f _ _ _ W S) (W x) L A) as [C [C' G]]. rewrite C in E. rewrite C'.
    destruct (f_arith (denote o) (ty x) (ty x) op (RR (s x) v)) as [r|] eqn:R; [|discriminate]. cbn [bind] in E.
    injection E as <-. destruct (x_arith2 o _ _ _ _ op (RR (s x) v) r (W x) (W x)) as [-> Q]; auto.
    { split; [apply T|auto]. }
    rewrite common_self in Q. split; [now apply typed_write|auto].
  - destruct S as [S L]. destruct (ieval ty s i) as [v|] eqn:V; [|discriminate]. cbn [bind] in E.
    destruct (x_ieval _ _ _ _ _ W T S V) as [A ->]. cbn [bind]. cbn [f_assign] in *.
    destruct (conv_int_both _ _ _ _ _ (wider_i _ _ _ W S) (W x) L A) as [C [C' G]]. rewrite C in E. rewrite C'.
    destruct (f_arith (denote o) (ty x) (ty x) op (RI (s x) v)) as [r|] eqn:R; [|discriminate]. cbn [bind] in E.
    injection E as <-. destruct (x_arith2 o _ _ _ _ op (RI (s x) v) r (W x) (W x)) as [-> Q]; auto.
    { split; [apply T|auto]. }
    rewrite common_self in Q. split; [now apply typed_write|auto].
  - destruct S as [Sa Sb]. destruct (exec (denote o) ty fuel s a) as [[s1|]|] eqn:X; try discriminate.
    destruct (IH _ _ _ W T Sa X) as [T1 ->]. eapply IH; eauto.
  - destruct S as [Sb [Sx Sy]]. destruct (beval (denote o) ty s b) as [v|] eqn:B; [|discriminate].
    rewrite (x_beval _ _ _ _ _ _ W T Sb B). destruct v; eapply IH; eauto.
  - destruct S as [Sb Sx]. destruct (beval (denote o) ty s b) as [v|] eqn:B; [|discriminate].
    rewrite (x_beval _ _ _ _ _ _ W T Sb B). destruct v; [|inversion E; subst; auto].
    destruct (exec (denote o) ty fuel s x) as [[s1|]|] eqn:X; try discriminate.
    destruct (IH _ _ _ W T Sx X) as [T1 ->]. eapply IH; eauto; cbn; auto.
Qed.

(** ** Durations *)

Lemma some_inj : forall (A : Type) (x y : A), Some x = Some y -> x = y.
Proof. congruence. Qed.
Lemma some_pair_inj : forall (A B : Type) (a a' : A) (x y : B), Some (a, x) = Some (a', y) -> a = a' /\ x = y.
Proof. intros. split; congruence. Qed.

Lemma make_ratio_fits : forall n d p, make_ratio n d = Some p -> in_rep int64 (pnum p) = true /\ in_rep int64 (pden p) = true.
Proof.
  intros n d p E. unfold make_ratio in E. destruct (_ && _) eqn:B; [|discriminate]. injection E as <-. cbn.
  now apply andb_true_iff.
Qed.
Lemma int64_fits : forall t z, signed_rep t -> 64 <= rbits t -> in_rep int64 z = true -> in_rep t z = true.
Proof. intros t z S L I. apply (wide_in int64 t z); auto. split; [|split; auto]. split; [|reflexivity]. unfold wf_rep. cbn. lia. Qed.
Lemma to_cr_both : forall t u c, wider t u -> wf_count t c -> to_cr t c = to_cr u c /\ wf_raw t (to_cr t c).
Proof.
  intros t u [s z|r] H F; cbn in *; [|auto]. pose proof H as [S [S' _]].
  rewrite (conv_int_id s t z), (conv_int_id s u z); try apply S; try apply S'; try tauto; [|eapply wide_in; eauto; tauto].
  split; [auto|]. split; [tauto|]. now apply one_rep.
Qed.

Theorem x_duration_cast : forall o t u a b c r, wider t u -> 64 <= rbits t -> wf_count t c ->
  duration_cast (denote o) t a b c = Some (Ok r) -> wf_raw t r /\ duration_cast (denote o) u a b c = Some (Ok r).
Proof.
  intros o t u a b c r H L F E. pose proof H as [S [S' LU]]. unfold duration_cast in *.
  destruct (ratio_divide a b) as [cf|] eqn:R; [|discriminate]. apply make_ratio_fits in R as [IN ID].
  pose proof (int64_fits t _ S L IN) as TN. pose proof (int64_fits t _ S L ID) as TD.
  pose proof (int64_fits u _ S' ltac:(lia) IN) as UN. pose proof (int64_fits u _ S' ltac:(lia) ID) as UD.
  destruct (to_cr_both t u c H F) as [CR WC]. rewrite <- CR.
  rewrite (conv_int_id int64 u _ (proj1 S') UN), (conv_int_id int64 u _ (proj1 S') UD).
  rewrite (conv_int_id int64 t _ (proj1 S) TN), (conv_int_id int64 t _ (proj1 S) TD) in E.
  assert (WN : wf_raw t (f_of_int (pnum cf))) by (split; [auto|now apply one_rep]).
  assert (WD : wf_raw t (f_of_int (pden cf))) by (split; [auto|now apply one_rep]).
  destruct (_ && _); [injection E as <-; auto|].
  destruct (pnum cf =? 1).
  { apply some_inj in E. rewrite (x_f_arith _ _ _ _ _ _ H E). split; [|auto]. rewrite f_arith_self in E.
    exact (arith_wf _ _ _ (RR (to_cr t c) (f_of_int (pden cf))) _ (proj1 S) (conj WC WD) E). }
  destruct (pden cf =? 1).
  { apply some_inj in E. rewrite (x_f_arith _ _ _ _ _ _ H E). split; [|auto]. rewrite f_arith_self in E.
    exact (arith_wf _ _ _ (RR (to_cr t c) (f_of_int (pnum cf))) _ (proj1 S) (conj WC WN) E). }
  apply some_inj in E. inv_bind E. rewrite (x_f_arith _ _ _ _ _ _ H E0). cbn [bind]. rewrite (x_f_arith _ _ _ _ _ _ H E). split; [|auto].
  rewrite f_arith_self in E0, E.
  pose proof (arith_wf _ _ _ (RR (to_cr t c) (f_of_int (pnum cf))) _ (proj1 S) (conj WC WN) E0) as W0.
  exact (arith_wf _ _ _ (RR a0 (f_of_int (pden cf))) _ (proj1 S) (conj W0 WD) E).
Qed.
Theorem x_duration_arith : forall o t u op a b l r pc v, wider t u -> 64 <= rbits t -> wf_count t l -> wf_count t r ->
  duration_arith (denote o) t op a b l r = Some (pc, Ok v) -> duration_arith (denote o) u op a b l r = Some (pc, Ok v).
Proof.
  intros o t u op a b l r pc v H L Fl Fr E. unfold duration_arith in *. destruct (common_period a b) as [q|]; [|discriminate].
  destruct (duration_cast (denote o) t a q l) as [[x|]|] eqn:X; try discriminate;
    destruct (duration_cast (denote o) t b q r) as [[y|]|] eqn:Y; try discriminate.
  destruct (x_duration_cast _ _ _ _ _ _ _ H L Fl X) as [_ ->]. destruct (x_duration_cast _ _ _ _ _ _ _ H L Fr Y) as [_ ->].
  cbn [bind] in *. apply some_pair_inj in E as [-> E]. now rewrite (x_f_arith _ _ _ _ _ _ H E).
Qed.
Theorem x_duration_lt : forall o t u a b l r v, wider t u -> 64 <= rbits t -> wf_count t l -> wf_count t r ->
  duration_lt (denote o) t a b l r = Some (Ok v) -> duration_lt (denote o) u a b l r = Some (Ok v).
Proof.
  intros o t u a b l r v H L Fl Fr E. unfold duration_lt in *. destruct (common_period a b) as [q|]; [|discriminate].
  destruct (duration_cast (denote o) t a q l) as [[x|]|] eqn:X; try discriminate;
    destruct (duration_cast (denote o) t b q r) as [[y|]|] eqn:Y; try discriminate.
  destruct (x_duration_cast _ _ _ _ _ _ _ H L Fl X) as [_ ->]. destruct (x_duration_cast _ _ _ _ _ _ _ H L Fr Y) as [_ ->].
  cbn [bind] in *. apply some_inj in E. now rewrite (x_f_cmp _ _ _ _ _ _ H E).
Qed.
Theorem x_duration_eq : forall o t u a b l r v, wider t u -> 64 <= rbits t -> wf_count t l -> wf_count t r ->
  duration_eq (denote o) t a b l r = Some (Ok v) -> duration_eq (denote o) u a b l r = Some (Ok v).
Proof.
  intros o t u a b l r v H L Fl Fr E. unfold duration_eq in *. destruct (common_period a b) as [q|]; [|discriminate].
  destruct (duration_cast (denote o) t a q l) as [[x|]|] eqn:X; try discriminate;
    destruct (duration_cast (denote o) t b q r) as [[y|]|] eqn:Y; try discriminate.
  destruct (x_duration_cast _ _ _ _ _ _ _ H L Fl X) as [_ ->]. destruct (x_duration_cast _ _ _ _ _ _ _ H L Fr Y) as [_ ->].
  cbn [bind] in *. apply some_inj in E. now rewrite (x_f_cmp _ _ _ _ _ _ H E).
Qed.
Theorem x_duration_le : forall o t u a b l r v, wider t u -> 64 <= rbits t -> wf_count t l -> wf_count t r ->
  duration_le (denote o) t a b l r = Some (Ok v) -> duration_le (denote o) u a b l r = Some (Ok v).
Proof.
  intros o t u a b l r v H L Fl Fr E. unfold duration_le in *.
  destruct (duration_lt (denote o) t b a r l) as [[x|]|] eqn:X; try discriminate.
  now rewrite (x_duration_lt _ _ _ _ _ _ _ _ H L Fr Fl X).
Qed.
Theorem x_duration_floor : forall o t u a b c v, wider t u -> 64 <= rbits t -> wf_count t c ->
  duration_floor (denote o) t a b c = Some (Ok v) -> duration_floor (denote o) u a b c = Some (Ok v).
Proof.
  intros o t u a b c v H L F E. unfold duration_floor in *.
  destruct (duration_cast (denote o) t a b c) as [[x|]|] eqn:X; try discriminate.
  destruct (x_duration_cast _ _ _ _ _ _ _ H L F X) as [WX ->].
  destruct (duration_lt (denote o) t a b c (FracCount x)) as [[g|]|] eqn:G; try discriminate.
  rewrite (x_duration_lt _ _ _ _ _ _ (FracCount x) _ H L F WX G). cbn [bind] in *. destruct g; [|auto].
  apply some_inj in E. now rewrite (x_f_arith _ _ _ _ _ _ H E).
Qed.
Theorem x_duration_ceil : forall o t u a b c v, wider t u -> 64 <= rbits t -> wf_count t c ->
  duration_ceil (denote o) t a b c = Some (Ok v) -> duration_ceil (denote o) u a b c = Some (Ok v).
Proof.
  intros o t u a b c v H L F E. unfold duration_ceil in *.
  destruct (duration_cast (denote o) t a b c) as [[x|]|] eqn:X; try discriminate.
  destruct (x_duration_cast _ _ _ _ _ _ _ H L F X) as [WX ->].
  destruct (duration_lt (denote o) t b a (FracCount x) c) as [[g|]|] eqn:G; try discriminate.
  rewrite (x_duration_lt _ _ _ _ _ (FracCount x) _ _ H L WX F G). cbn [bind] in *. destruct g; [|auto].
  apply some_inj in E. now rewrite (x_f_arith _ _ _ _ _ _ H E).
Qed.
