(** Unsigned fractions: an unsigned representation of N bits computes what the
    signed one of N + 1 bits computes, as long as that one stays defined and
    non-negative. *)

From Coq Require Import ZArith QArith List Bool Lia.
From Verif Require Import Machine Raw Ops Spec Fraction Fraction_spec.
From Verif Require Import Machine_proofs Value_proofs Ops_proofs Cmp_proofs.
From Verif Require Import Mixed_spec Tight_spec Unsigned_spec Order_proofs Tight_proofs Fraction_proofs.
Import ListNotations.
Open Scope Z_scope.

Lemma widens_range : forall t s, widens t s -> rmax s = rmax t /\ rmin t = 0 /\ wf_rep s.
Proof.
  intros t s [W [T [S B]]]. unfold rmax, rmin, wf_rep in *. rewrite T, S, B.
  replace (rbits t + 1 - 1) with (rbits t) by lia. repeat split; lia.
Qed.

Lemma widens_in : forall t s v, widens t s -> 0 <= v -> in_rep s v = true -> in_rep t v = true.
Proof. intros t s v H P I. apply widens_range in H as [A [B C]]. apply in_rep_iff in I. apply in_rep_iff. lia. Qed.

Lemma widens_in' : forall t s v, widens t s -> in_rep t v = true -> in_rep s v = true /\ 0 <= v.
Proof.
  intros t s v H I. apply widens_range in H as [A [B C]]. apply in_rep_iff in I.
  pose proof (rmin_nonpos s C). split; [apply in_rep_iff|]; lia.
Qed.

Lemma w_arith : forall t s v r, widens t s -> 0 <= v -> arith s v = Ok r -> arith t v = Ok r /\ 0 <= r.
Proof.
  intros t s v r H P E. pose proof H as [W [T [S B]]]. apply arith_signed in E as [-> I]; auto.
  split; auto. apply arith_in; auto. eapply widens_in; eauto.
Qed.
Lemma w_mul : forall t s a b r, widens t s -> 0 <= a -> 0 <= b -> m_mul s a b = Ok r -> m_mul t a b = Ok r /\ 0 <= r.
Proof. intros. eapply w_arith; eauto. nia. Qed.
Lemma w_add : forall t s a b r, widens t s -> 0 <= a -> 0 <= b -> m_add s a b = Ok r -> m_add t a b = Ok r /\ 0 <= r.
Proof. intros. eapply w_arith; eauto. lia. Qed.
Lemma w_sub : forall t s a b r, widens t s -> 0 <= r -> m_sub s a b = Ok r -> m_sub t a b = Ok r /\ 0 <= r.
Proof.
  intros t s a b r H P E. pose proof H as [_ [_ [S _]]]. pose proof E as E'. unfold m_sub in E'.
  apply arith_signed in E' as [-> _]; auto. eapply w_arith; eauto.
Qed.
Lemma w_div : forall t s a b r, widens t s -> 0 <= a -> 0 <= b -> m_div s a b = Ok r -> m_div t a b = Ok r /\ 0 <= r.
Proof.
  intros t s a b r H A B E. pose proof H as [_ [_ [S _]]]. unfold m_div in *. destruct (b =? 0); [discriminate|].
  apply w_arith with (t := t) in E; auto. now apply quot_nonneg.
Qed.
Lemma w_rem : forall t s a b r, widens t s -> 0 <= a -> 0 <= b -> m_rem s a b = Ok r -> m_rem t a b = Ok r /\ 0 <= r.
Proof.
  intros t s a b r H A B E. pose proof H as [W [T [S _]]]. apply m_rem_signed in E as [N [-> I]]; auto.
  split.
  - apply m_rem_in; auto. eapply widens_in; eauto. now apply quot_nonneg.
  - destruct (rem_between a b) as [R _]. now apply R.
Qed.
Lemma w_neg0 : forall t s r, widens t s -> m_neg s 0 = Ok r -> m_neg t 0 = Ok r /\ 0 <= r.
Proof. intros t s r H E. unfold m_neg in *. eapply w_arith; eauto. lia. Qed.
Lemma w_gcd : forall t s a b r, widens t s -> std_gcd s a b = Ok r -> std_gcd t a b = Ok r /\ 0 <= r.
Proof.
  intros t s a b r H E. apply std_gcd_ok in E as [-> [A B]]. split; [|apply Z.gcd_nonneg].
  unfold std_gcd. rewrite (widens_in t s _ H (Z.abs_nonneg _) A), (widens_in t s _ H (Z.abs_nonneg _) B). reflexivity.
Qed.
Lemma w_lcm : forall t s a b r, widens t s -> std_lcm s a b = Ok r -> std_lcm t a b = Ok r /\ 0 <= r.
Proof.
  intros t s a b r H E. apply std_lcm_ok in E as [-> [A [B C]]]. split; [|apply Z.lcm_nonneg].
  unfold std_lcm. rewrite (widens_in t s _ H (Z.abs_nonneg _) A), (widens_in t s _ H (Z.abs_nonneg _) B),
    (widens_in t s _ H (Z.lcm_nonneg _ _) C). reflexivity.
Qed.

Definition nonneg (v : raw) : Prop := 0 <= num v /\ 0 <= den v.

Ltac w_step H :=
  match goal with
  | E : std_lcm _ _ _ = Ok _ |- context [std_lcm _ _ _] => apply (w_lcm _ _ _ _ _ H) in E; destruct E as [-> ?]
  | E : std_gcd _ _ _ = Ok _ |- context [std_gcd _ _ _] => apply (w_gcd _ _ _ _ _ H) in E; destruct E as [-> ?]
  | E : m_mul _ ?a ?b = Ok _ |- context [m_mul _ ?a ?b] => apply (w_mul _ _ _ _ _ H) in E; [destruct E as [-> ?]|assumption|assumption]
  | E : m_add _ ?a ?b = Ok _ |- context [m_add _ ?a ?b] => apply (w_add _ _ _ _ _ H) in E; [destruct E as [-> ?]|assumption|assumption]
  | E : m_div _ ?a ?b = Ok _ |- context [m_div _ ?a ?b] => apply (w_div _ _ _ _ _ H) in E; [destruct E as [-> ?]|assumption|assumption]
  | E : m_rem _ ?a ?b = Ok _ |- context [m_rem _ ?a ?b] => apply (w_rem _ _ _ _ _ H) in E; [destruct E as [-> ?]|assumption|assumption]
  | E : m_sub _ ?a ?b = Ok _ |- context [m_sub _ ?a ?b] => apply (w_sub _ _ _ _ _ H) in E; [destruct E as [-> ?]|assumption]
  end; cbn [bind].

Lemma w_reduce_ignore : forall t s v r, widens t s -> nonneg v -> reduce_ignore_signs s v = Ok r ->
  reduce_ignore_signs t v = Ok r /\ nonneg r.
Proof.
  intros t s v r H [A B] E. unfold reduce_ignore_signs in *. destruct (is_undefined v).
  - inversion E; subst. split; auto. split; cbn; lia.
  - inv_all. repeat w_step H. split; auto. split; auto.
Qed.

Lemma w_reduce : forall t s v m r, widens t s -> nonneg v -> reduce s v m = Ok r -> reduce t v m = Ok r /\ nonneg r.
Proof.
  intros t s v m r H N E. pose proof H as [W [T [S B]]]. destruct m; cbn [reduce] in *; [|eapply w_reduce_ignore; eauto].
  unfold reduce_normalize_signs in *. inv_bind E. pose proof E0 as E1.
  eapply w_reduce_ignore in E0 as [F N']; eauto. rewrite F. cbn [bind]. unfold normalize_signs in *.
  destruct (den a >? 0) eqn:G; [inversion E; subst; split; auto|].
  assert (D : den a = 0) by (destruct N'; apply not_true_iff_false in G; rewrite Z.gtb_lt in G; lia).
  assert (Nu : num a = 0).
  { unfold reduce_ignore_signs in E1. destruct (is_undefined v) eqn:U; [inversion E1; reflexivity|].
    exfalso. inv_all. cbn [den] in D. apply std_gcd_ok in E0 as [-> _]. apply m_div_signed in E3 as [NZ [-> _]]; auto.
    unfold is_undefined, is_defined in U. rewrite negb_involutive in U. apply Z.eqb_neq in U.
    destruct (Z.gcd_divide_r (num v) (den v)) as [k K]. rewrite K in D at 1. rewrite Z.quot_mul in D by auto. subst k. lia. }
  rewrite D, Nu in *. inv_all. eapply w_neg0 in E0 as [-> ?]; eauto. cbn [bind].
  split; auto. split; auto.
Qed.

Lemma wf_nonneg : forall t v, rsigned t = false -> wf_raw t v -> nonneg v.
Proof.
  intros t v T [A B]. apply in_rep_iff in A. apply in_rep_iff in B. unfold rmin in *. rewrite T in *. split; lia.
Qed.

Definition w_ok (p : policy) : Prop := forall t s op a r, widens t s -> wf_args t a -> no_borrow op a ->
  p_arith p s op a = Ok r -> p_arith p t op a = Ok r /\ nonneg r.

Lemma widens_wf_raw : forall t s v, widens t s -> wf_raw t v -> wf_raw s v.
Proof. intros t s v H [A B]. split; eapply widens_in'; eauto. Qed.
Lemma widens_wf_args : forall t s a, widens t s -> wf_args t a -> wf_args s a.
Proof.
  intros t s [l r|l z|z r] H [A B]; split; eauto using widens_wf_raw; eapply widens_in'; eauto.
Qed.

(** The numerator of an exact non-negative difference is not negative. *)
Lemma diff_nonneg : forall x y n d, (y <= x)%Q -> 0 <= d ->
  same_value (value (mkRaw n d)) (Some (x - y)%Q) -> 0 <= n.
Proof.
  intros x y n d L D V. unfold value in V. cbn [num den] in V. destruct (Z.eqb_spec d 0); [destruct V|].
  cbn in V. assert (0 < d) by lia. assert (P : (0 <= inject_Z n / inject_Z d)%Q).
  { rewrite V. apply Qle_minus_iff in L. exact L. }
  destruct (Z_lt_le_dec n 0); [|auto]. exfalso. revert P. apply Qlt_not_le.
  apply Qlt_shift_div_r; [rewrite <- (Zlt_Qlt 0); auto|]. rewrite Qmult_0_l. now rewrite <- (Zlt_Qlt _ 0).
Qed.

Lemma base_w : forall p, p = safe \/ p = fast -> w_ok p.
Proof.
  intros p P t s op a r H WA SD E.
  pose proof H as [W [T [S B]]]. pose proof (widens_range t s H) as [_ [_ Ws]].
  assert (DIFF : op = Minus -> 0 <= den r -> 0 <= num r).
  { intros -> D. destruct (SD eq_refl) as [x [y [X [Y L]]]].
    assert (V : same_value (value r) (exact_opt Minus (left_value a) (right_value a))).
    { assert (DA : defined_args a) by (split; congruence). pose proof (widens_wf_args t s a H WA).
      destruct P as [-> | ->]; [apply (denote_exact Safe s Minus a r)|apply (denote_exact Fast s Minus a r)]; auto. }
    rewrite X, Y in V. destruct r as [n d]. eapply diff_nonneg; eauto. }
  clear SD.
  destruct a as [l r'|l z|z r']; destruct WA as [WA1 WA2];
    try (pose proof (wf_nonneg _ _ T WA1) as [N1 N2]); try (pose proof (wf_nonneg _ _ T WA2) as [N3 N4]);
    try (pose proof (widens_in' _ _ _ H WA1) as [_ N1]); try (pose proof (widens_in' _ _ _ H WA2) as [_ N3]);
    destruct P as [-> | ->]; destruct op;
    match goal with |- ?X /\ _ => enough (X /\ nonneg r) by assumption; remember X as GG eqn:GE end;
    unfold_policy GE; unfold_policy E; inv_all; cbn [num den] in DIFF;
    repeat w_step H;
    try (specialize (DIFF eq_refl ltac:(assumption)); repeat w_step H);
    (split; [reflexivity|split; cbn [num den]; assumption]).
Qed.

Lemma w_reduce_args : forall t s a m b, widens t s -> wf_args t a -> reduce_args s a m = Ok b ->
  reduce_args t a m = Ok b /\ wf_args t b /\ args_reduce m a b.
Proof.
  intros t s a m b H WA E. pose proof H as [W [T [S B]]].
  assert (G : reduce_args t a m = Ok b).
  { destruct a as [l r|l z|z r]; destruct WA as [WA1 WA2]; cbn [reduce_args] in *; inv_all;
      repeat match goal with X : reduce s _ _ = Ok _ |- _ =>
        apply (w_reduce t s _ _ _ H) in X; [destruct X as [-> _]; cbn [bind]|eapply wf_nonneg; eauto] end; reflexivity. }
  split; auto. apply reduce_args_spec in G; auto.
Qed.

Lemma no_borrow_reduce : forall m op a b, args_reduce m a b -> no_borrow op a -> no_borrow op b.
Proof.
  intros m op a b R SD O. destruct (SD O) as [x [y [X [Y L]]]].
  pose proof (args_reduce_left _ _ _ R) as P1. pose proof (args_reduce_right _ _ _ R) as P2. rewrite X in P1. rewrite Y in P2.
  destruct (left_value b) as [x'|]; [|destruct P1]. destruct (right_value b) as [y'|]; [|destruct P2]. cbn in P1, P2.
  exists x', y'. repeat split. now rewrite P1, P2.
Qed.

Theorem unsigned_arith : forall o, w_ok (denote o).
Proof.
  induction o as [| |o IH m|o IH m]; cbn [denote]; [apply base_w; auto|apply base_w; auto| |];
    intros t s op a r H WA SD E.
  - rewrite ri_arith_eq in *. inv_bind E. eapply w_reduce_args in E0 as [-> [WB R]]; eauto. cbn [bind].
    eapply IH; eauto. eapply no_borrow_reduce; eauto.
  - rewrite ro_arith_eq in *. inv_bind E. eapply IH in E0 as [-> N]; eauto. cbn [bind]. eapply w_reduce; eauto.
Qed.

Lemma base_cmp_w : forall p t s op a b, p = safe \/ p = fast -> widens t s -> wf_args t a ->
  p_cmp p s op a = Ok b -> p_cmp p t op a = Ok b.
Proof.
  intros p t s op a b P H WA E. pose proof H as [W [T [S B]]].
  destruct a as [l r'|l z|z r']; destruct WA as [WA1 WA2];
    try (pose proof (wf_nonneg _ _ T WA1) as [N1 N2]); try (pose proof (wf_nonneg _ _ T WA2) as [N3 N4]);
    try (pose proof (widens_in' _ _ _ H WA1) as [_ N1]); try (pose proof (widens_in' _ _ _ H WA2) as [_ N3]);
    destruct P as [-> | ->]; destruct op;
    match goal with |- ?X => enough X by assumption; remember X as GG eqn:GE end;
    unfold_cmp GE; unfold_cmp E; subst GG;
    try match goal with |- context [is_undefined ?x || is_undefined ?y] => destruct (is_undefined x || is_undefined y) end;
    inv_all; repeat w_step H; reflexivity.
Qed.

Theorem unsigned_cmp : forall o t s op a b, widens t s -> wf_args t a ->
  p_cmp (denote o) s op a = Ok b -> p_cmp (denote o) t op a = Ok b.
Proof.
  induction o as [| |o IH m|o IH m]; cbn [denote]; intros t s op a b H WA E;
    [exact (base_cmp_w safe t s op a b (or_introl eq_refl) H WA E)|exact (base_cmp_w fast t s op a b (or_intror eq_refl) H WA E)| |].
  - rewrite ri_cmp_eq in *. inv_bind E. destruct (w_reduce_args _ _ _ _ _ H WA E0) as [-> [WB R]]. cbn [bind]. eapply IH; eauto.
  - rewrite ro_cmp_eq in *. eapply IH; eauto.
Qed.

Lemma to_wider : forall t, unsigned_rep t -> widens t (mkRep true (rbits t + 1)).
Proof. intros t [W U]. repeat split; auto. Qed.

(** ** Consequences *)
Theorem unsigned_exact : forall o t op a, unsigned_rep t -> wf_args t a -> defined_args a ->
  no_borrow op a -> products_fit (rmax t) op (lraw a) (rraw a) ->
  exists r, p_arith (denote o) t op a = Ok r /\ wf_raw t r /\
    same_value (value r) (exact_opt op (left_value a) (right_value a)).
Proof.
  intros o t op a U WA D NB F. pose proof (to_wider t U) as H. set (s := mkRep true (rbits t + 1)) in *.
  pose proof (widens_range t s H) as [M [_ Ws]]. rewrite <- M in F.
  assert (SR : signed_rep s) by (split; auto).
  destruct (denote_tight o s op a SR F) as [r [E _]]. exists r.
  pose proof (widens_wf_args t s a H WA) as WS.
  destruct (unsigned_arith o t s op a r H WA NB E) as [E' N]. split; auto. split.
  - exact (proj1 (denote_wf o) t op a r (proj1 U) WA E').
  - eapply denote_exact; eauto.
Qed.

Theorem unsigned_cmp_exact : forall o t op a, unsigned_rep t -> wf_args t a ->
  cross_fit (rmax t) (lraw a) (rraw a) ->
  p_cmp (denote o) t op a = Ok (exact_cmp_opt op (left_value a) (right_value a)).
Proof.
  intros o t op a U WA F. pose proof (to_wider t U) as H. set (s := mkRep true (rbits t + 1)) in *.
  pose proof (widens_range t s H) as [M [_ Ws]]. rewrite <- M in F.
  assert (SR : signed_rep s) by (split; auto).
  destruct (denote_cmp_tight o s op a SR F) as [b E]. pose proof (widens_wf_args t s a H WA) as WS.
  rewrite (unsigned_cmp o t s op a b H WA E). f_equal.
  assert (DD : defined_args a \/ ~ defined_args a).
  { unfold defined_args. destruct (left_value a), (right_value a); [left; split; discriminate|right|right|right]; intuition congruence. }
  destruct DD as [D|D].
  - eapply denote_cmp_defined; eauto. right. right. left.
    assert (P : forall v, wf_raw t v -> value v <> None -> 0 < den v).
    { intros v Wv Nv. destruct (wf_nonneg t v (proj2 U) Wv) as [_ B]. unfold value in Nv.
      destruct (Z.eqb_spec (den v) 0); [congruence|lia]. }
    destruct D as [D1 D2]. destruct a; cbn in *; destruct WA; auto.
  - rewrite (denote_cmp_undefined o s op a b Ws WS D E). unfold defined_args in D.
    destruct (left_value a), (right_value a); auto. exfalso. apply D. split; discriminate.
Qed.

Lemma eval_value : forall o t e r, wf_rep t -> rsigned t = true ->
  reduces_inputs o = true \/ denotes e <> None -> wf_expr t e ->
  eval (denote o) t e = Ok r -> same_value (value r) (denotes e).
Proof.
  intros o t e r W S [C|C] We E; [eapply eval_exact_opt; eauto|].
  destruct (denotes e) eqn:D; [|congruence]. eapply eval_exact; eauto.
Qed.

Theorem unsigned_eval : forall o t s e r, widens t s -> reduces_inputs o = true \/ denotes e <> None -> wf_expr t e -> no_borrows e ->
  eval (denote o) s e = Ok r -> eval (denote o) t e = Ok r /\ wf_raw t r.
Proof.
  intros o t s e r H C. revert r. revert C. pose proof H as [W [T [S B]]]. pose proof (widens_range t s H) as [_ [_ Ws]].
  assert (WE : forall e, wf_expr t e -> wf_expr s e).
  { induction e0; cbn [wf_expr]; intuition eauto using widens_wf_raw; eapply widens_in'; eauto. }
  assert (K : forall op a r, wf_args t a -> no_borrow op a -> f_arith (denote o) s s op a = Ok r ->
     f_arith (denote o) t t op a = Ok r /\ wf_raw t r).
  { intros op a v WA NB E. rewrite f_arith_self in *.
    eapply unsigned_arith in E as [E _]; eauto. split; auto. exact (proj1 (denote_wf o) t op a v W WA E). }
  induction e as [v|e IH|e IH|op l IHl r' IHr|op l IHl z|op z r' IHr]; intros C r We NB E;
    cbn [eval wf_expr no_borrows denotes] in *.
  - inv_all. auto.
  - inv_all. destruct (IH C a We NB eq_refl) as [-> ?]. cbn [bind]. auto.
  - tauto.
  - inv_all. destruct We as [W1 W2], NB as [B1 [B2 B3]].
    assert (C1 : reduces_inputs o = true \/ denotes l <> None)
      by (destruct C as [C|C]; [auto|right; intros X; apply C; now rewrite X]).
    assert (C2 : reduces_inputs o = true \/ denotes r' <> None)
      by (destruct C as [C|C]; [auto|right; intros X; apply C; rewrite X; now destruct (denotes l)]).
    pose proof (eval_value o s l _ Ws S C1 (WE _ W1) E0) as V1.
    pose proof (eval_value o s r' _ Ws S C2 (WE _ W2) E1) as V2.
    destruct (IHl C1 _ W1 B1 eq_refl) as [-> ?]. destruct (IHr C2 _ W2 B2 eq_refl) as [-> ?]. cbn [bind]. apply K; auto.
    + split; auto.
    + intros O. destruct (B3 O) as [x [y [X [Y L]]]]. rewrite X in V1. rewrite Y in V2. cbn [left_value right_value].
      destruct (value a) as [x'|]; [|destruct V1]. destruct (value a0) as [y'|]; [|destruct V2]. cbn in V1, V2.
      exists x', y'. repeat split. now rewrite V1, V2.
  - inv_all. destruct We as [W1 W2], NB as [B1 B3].
    assert (C1 : reduces_inputs o = true \/ denotes l <> None)
      by (destruct C as [C|C]; [auto|right; intros X; apply C; now rewrite X]).
    pose proof (eval_value o s l _ Ws S C1 (WE _ W1) E0) as V1.
    destruct (IHl C1 _ W1 B1 eq_refl) as [-> ?]. cbn [bind]. apply K; auto.
    + split; auto.
    + intros O. destruct (B3 O) as [x [y [X [Y L]]]]. rewrite X in V1. cbn [left_value right_value].
      destruct (value a) as [x'|]; [|destruct V1]. cbn in V1.
      exists x', y. repeat split; auto. now rewrite V1.
  - inv_all. destruct We as [W1 W2], NB as [B1 B3].
    assert (C1 : reduces_inputs o = true \/ denotes r' <> None)
      by (destruct C as [C|C]; [auto|right; intros X; apply C; now rewrite X]).
    pose proof (eval_value o s r' _ Ws S C1 (WE _ W2) E0) as V1.
    destruct (IHr C1 _ W2 B1 eq_refl) as [-> ?]. cbn [bind]. apply K; auto.
    + split; auto.
    + intros O. destruct (B3 O) as [x [y [X [Y L]]]]. rewrite Y in V1. cbn [left_value right_value].
      destruct (value a) as [x'|]; [|destruct V1]. cbn in V1.
      exists x, x'. repeat split; auto. now rewrite V1.
Qed.

Theorem unsigned_eval_exact : forall o t e q B, unsigned_rep t -> wf_expr t e -> no_borrows e ->
  denotes e = Some q -> 1 <= B -> expr_bounded B e -> grow (depth e) B <= rmax t ->
  exists r, eval (denote o) t e = Ok r /\ wf_raw t r /\ same_value (value r) (Some q).
Proof.
  intros o t e q B U We NB D HB EB G. pose proof (to_wider t U) as H. set (s := mkRep true (rbits t + 1)) in *.
  pose proof (widens_range t s H) as [M [_ Ws]]. rewrite <- M in G.
  assert (WE : forall e, wf_expr t e -> wf_expr s e).
  { induction e0; cbn [wf_expr]; intuition eauto using widens_wf_raw; eapply widens_in'; eauto. }
  destruct (eval_total o s e q B) as [r [E [_ [_ V]]]]; auto.
  destruct (unsigned_eval o t s e r H) as [E' W']; auto; [right; congruence|]. eauto.
Qed.
