(** Client programs under policies that do not return lowest terms. *)

From Coq Require Import ZArith QArith Qabs Bool Lia.
From Verif Require Import Machine Raw Ops Spec Fraction Fmath Mixed_spec Program Program_spec Program2_spec Fraction_spec.
From Verif Require Import Machine_proofs Value_proofs Ops_proofs Total_proofs Cmp_proofs Order_proofs Algebra_proofs
  Qtrunc_proofs Laws_proofs Fraction_proofs Fmath_proofs Mixed_proofs Program_proofs Program2_proofs.
Open Scope Z_scope.

(** ** Positive denominators stay positive without division *)

Lemma lcm_pos : forall a b, 0 < a -> 0 < b -> 0 < Z.lcm a b.
Proof.
  intros a b A B. pose proof (Z.lcm_nonneg a b). destruct (Z.eq_dec (Z.lcm a b) 0) as [E|]; [|lia].
  apply Z.lcm_eq_0 in E. lia.
Qed.

Lemma base_pos : forall p t op a r, p = safe \/ p = fast -> rsigned t = true -> op <> Divides ->
  positive_dens a -> p_arith p t op a = Ok r -> 0 < den r.
Proof.
  intros p t op a r P S N D H.
  destruct P as [-> | ->]; destruct op; try congruence; destruct a as [x y|x z|z y]; cbn in D; cbn in H;
  unfold safe_plus_rr, safe_plus_ir, safe_plus_ri, safe_minus_rr, safe_minus_ri,
    safe_minus_ir, safe_multiplies_rr, safe_multiplies_ir, safe_multiplies_ri,
    safe_modulus_rr, safe_modulus_ri, safe_modulus_ir,
    fast_plus_rr, fast_plus_ir, fast_plus_ri, fast_minus_rr, fast_minus_ri,
    fast_minus_ir, fast_multiplies_rr, fast_multiplies_ir, fast_multiplies_ri,
    fast_modulus_rr, fast_modulus_ri, fast_modulus_ir in H;
  inv_bind H; signed_facts S;
  try (match goal with E : std_lcm _ _ _ = Ok _ |- _ =>
         apply std_lcm_ok in E as [-> [_ [_ _]]] end);
  inversion H; subst; clear H; cbn [num den] in *; try tauto; try (apply lcm_pos; tauto); nia.
Qed.

Lemma reduce_pos : forall t v m r, wf_rep t -> wf_raw t v -> 0 < den v -> reduce t v m = Ok r -> 0 < den r.
Proof.
  intros t v m r W A D H. 
  assert (P : positive_dens (RR v v)) by (split; auto).
  destruct m.
  - apply reduce_spec in H as [_ [R _]]; auto.
    assert (Q : args_reduce normalize_signs_mode (RR v v) (RR r r)) by (split; auto).
    apply args_reduce_normal in Q; [apply Q|]. apply defined_args_raw. cbn. lia.
  - apply reduce_spec in H as [_ [R _]]; auto.
    assert (Q : args_reduce ignore_signs_mode (RR v v) (RR r r)) by (split; auto).
    apply args_reduce_positive in Q; [apply Q|auto].
Qed.

Lemma reduce_args_pos : forall t a m b, wf_rep t -> wf_args t a -> positive_dens a ->
  reduce_args t a m = Ok b -> positive_dens b.
Proof.
  intros t a m b W A P H. apply reduce_args_spec in H as [_ R]; auto. destruct m.
  - eapply args_reduce_normal; eauto. apply defined_args_raw. destruct a; cbn in *; lia.
  - eapply args_reduce_positive; eauto.
Qed.

Lemma denote_pos : forall o t op a r, wf_rep t -> rsigned t = true -> op <> Divides -> wf_args t a ->
  positive_dens a -> p_arith (denote o) t op a = Ok r -> 0 < den r.
Proof.
  induction o as [| |o IH m|o IH m]; intros t op a r W S N A D H; cbn [denote] in H.
  - apply (base_pos safe t op a r); auto.
  - apply (base_pos fast t op a r); auto.
  - rewrite ri_arith_eq in H. inv_bind H.
    pose proof (reduce_args_pos _ _ _ _ W A D E) as D'.
    apply reduce_args_spec in E as [A' _]; auto. eapply IH; eauto.
  - rewrite ro_arith_eq in H. inv_bind H.
    eapply reduce_pos; [exact W| |eapply IH; eauto|exact H]. eapply arith_wf; eauto.
Qed.

Lemma negate_pos : forall o t v r, wf_rep t -> wf_raw t v -> 0 < den v ->
  p_negate (denote o) t v = Ok r -> 0 < den r.
Proof.
  induction o as [| |o IH m|o IH m]; intros t v r W A D H; cbn [denote] in H; unfold_policy H.
  - inv_bind H. inversion H; subst. auto.
  - inv_bind H. inversion H; subst. auto.
  - inv_bind H. pose proof (reduce_pos _ _ _ _ W A D E). apply reduce_spec in E as [W' _]; auto.
    eapply IH; eauto.
  - inv_bind H. eapply reduce_pos; [exact W| |eapply IH; eauto|exact H]. eapply negate_wf; eauto.
Qed.

(** ** One operator *)

Definition holds (pos : bool) (t : rep) (v : raw) (q : option Q) : Prop :=
  wf_raw t v /\ sign_ok pos v /\ same_value (value v) q.

Definition args_ok (pos : bool) (a : args) : Prop :=
  match a with
  | RR x y => sign_ok pos x /\ sign_ok pos y
  | RI x _ => sign_ok pos x
  | IR _ y => sign_ok pos y
  end.

Lemma args_ok_pos : forall a, args_ok true a -> positive_dens a.
Proof. intros [] H; cbn in *; unfold sign_ok in H; tauto. Qed.

Lemma any_arith : forall o pos t op a r ql qr, signed_rep t -> arith_suits o pos op -> wf_args t a ->
  args_ok pos a -> same_value (left_value a) ql -> same_value (right_value a) qr ->
  p_arith (denote o) t op a = Ok r -> holds pos t r (exact_opt op ql qr).
Proof.
  intros o pos t op a r ql qr [W S] O A C L R H.
  split; [eapply arith_wf; eauto|]. split.
  - intros ->. destruct O as [O|[O _]]; [|discriminate].
    eapply denote_pos; eauto. now apply args_ok_pos.
  - rewrite <- L, <- R. eapply denote_exact_opt; eauto. destruct O as [O|[_ O]]; auto.
Qed.

Lemma any_cmp : forall o t op a b ql qr, signed_rep t -> wf_args t a ->
  (is_order op = true -> order_domain o a) ->
  same_value (left_value a) ql -> same_value (right_value a) qr ->
  p_cmp (denote o) t op a = Ok b -> b = exact_cmp_opt op ql qr.
Proof.
  intros o t op a b ql qr [W S] A C L R H.
  rewrite <- L, <- R. eapply denote_cmp; eauto.
  destruct op; cbn in C; [left; reflexivity|left; reflexivity|..]; right; auto.
Qed.

(** ** Integers *)

Lemma itype_any : forall pos ty s i, any_store pos ty s -> opaque_i i -> signed_rep (itype ty i).
Proof. intros pos ty s [t z|x|x|x] W I; cbn in *; try tauto; apply W. Qed.

Lemma ftype_any : forall o pos ty s e, any_store pos ty s -> suits_f o pos ty e -> signed_rep (ftype ty e).
Proof.
  intros o pos ty s e W. induction e; cbn; intros F; try tauto; try apply W.
  - eapply itype_any; eauto.
  - apply common_signed; tauto.
  - apply common_signed; [tauto|]. eapply itype_any; eauto; tauto.
  - apply common_signed; [|tauto]. eapply itype_any; eauto; tauto.
Qed.

Lemma f_trunc_in : forall t v k, wf_rep t -> f_trunc t v = Ok k -> in_rep t k = true.
Proof.
  intros t v k W H. unfold f_trunc, m_div in H. destruct (_ =? 0); [discriminate|].
  now apply arith_result_in in H.
Qed.

Lemma ieval_any : forall pos ty s q i z, any_store pos ty s -> represents s q -> opaque_i i ->
  ieval ty s i = Ok z -> in_rep (itype ty i) z = true /\ imeaning q i = Some z.
Proof.
  intros pos ty s q i z W R I H. destruct i as [t k|x|x|x]; cbn in *; try contradiction.
  - inversion H; subst. tauto.
  - destruct (W x) as [S [F C]]. split; [eapply f_trunc_in; eauto; apply S|].
    apply f_trunc_ok in H as [D K]; auto; [|apply S].
    specialize (R x). rewrite value_defined in R by auto. destruct (q x) as [v|]; [|contradiction].
    cbn in R. f_equal. rewrite <- R. rewrite Qtrunc_div by auto. congruence.
Qed.

Lemma int_any : forall pos ty s i z c, any_store pos ty s -> opaque_i i -> signed_rep c ->
  in_rep (itype ty i) z = true -> rbits (itype ty i) <= rbits c ->
  conv_int (itype ty i) c z = z /\ in_rep c z = true.
Proof.
  intros pos ty s i z c W I C Z B.
  assert (E : in_rep c z = true) by exact (value_in_width _ _ _ (itype_any _ _ _ _ W I) C B Z).
  split; auto. apply conv_int_id; auto. apply C.
Qed.

Lemma conv_any : forall pos s t v q, signed_rep s -> signed_rep t -> rbits s <= rbits t ->
  holds pos s v q -> conv_raw s t v = v /\ holds pos t v q.
Proof.
  intros pos s t v q S T B [W [C V]]. destruct (conv_wide s t v) as [E W']; auto. split; auto. split; auto.
Qed.

(** ** Expressions *)

Lemma feval_any : forall o pos ty s q e v, any_store pos ty s -> represents s q ->
  suits_f o pos ty e -> feval (denote o) ty s e = Ok v -> holds pos (ftype ty e) v (fmeaning q e).
Proof.
  intros o pos ty s q e v W R. revert v.
  induction e as [x|t r|i|e IH|e IH|e IH|e IH|op l IHl r IHr|op l IHl i|op i r IHr]; intros v F H; cbn in F, H |- *.
  - inversion H; subst. destruct (W x) as [_ [A C]]. repeat split; auto; apply A.
  - inversion H; subst. destruct F as [_ [A C]]. split; [|split]; auto. reflexivity.
  - inv_bind H. inversion H; subst. pose proof (itype_any _ _ _ _ W F) as S.
    destruct (ieval_any _ _ _ _ _ _ W R F E) as [A M]. rewrite M.
    split; [split; auto; now apply one_rep|]. split; [intros _; cbn; lia|].
    now apply int_low.
  - inv_bind H. inversion H; subst. now apply IH.
  - inv_bind H. pose proof (ftype_any _ _ _ _ _ W F) as [S1 S2]. destruct (IH a) as [A [C V]]; auto.
    split; [eapply negate_wf; eauto|]. split; [intros P; eapply negate_pos; eauto|].
    rewrite <- V. eapply denote_negate; eauto.
  - inv_bind H. pose proof (ftype_any _ _ _ _ _ W F) as [S1 S2]. destruct (IH a) as [A [C V]]; auto.
    assert (G : wf_raw (ftype ty e) v /\ sign_ok pos v).
    { unfold f_abs, f_negate in H. destruct (is_non_negative a); [inversion H; subst; auto|].
      split; [eapply negate_wf; eauto|intros P; eapply negate_pos; eauto]. }
    split; [tauto|]. split; [tauto|]. destruct (value a) as [x|] eqn:VA.
    + destruct (f_abs_spec _ _ _ _ S1 S2 A H x VA) as [q1 [-> Q1]].
      destruct (fmeaning q e) as [y|]; [|contradiction]. cbn in *. now rewrite Q1, V.
    + destruct (fmeaning q e); [contradiction|]. cbn.
      assert (N : value v = None).
      { unfold f_abs, f_negate in H. destruct (is_non_negative a); [inversion H; subst; auto|].
        eapply denote_negate_undef; eauto. }
      now rewrite N.
  - inv_bind H. pose proof (ftype_any _ _ _ _ _ W F) as [S1 S2]. destruct (IH a) as [A [C V]]; auto.
    assert (G : sign_ok pos v) by (intros P; exact (reduce_pos _ _ normalize_signs_mode _ S1 A (C P) H)).
    apply (reduce_spec _ _ normalize_signs_mode) in H as [A' [P _]]; auto. split; auto. split; auto.
    rewrite <- V. eapply reduces_same_value; eauto.
  - inv_bind H. destruct F as [Fo [Fl Fr]].
    pose proof (ftype_any _ _ _ _ _ W Fl) as Sl. pose proof (ftype_any _ _ _ _ _ W Fr) as Sr.
    destruct (common_signed _ _ Sl Sr) as [Sc [Bl Br]].
    specialize (IHl _ Fl eq_refl). specialize (IHr _ Fr eq_refl).
    unfold f_arith, common_args in H.
    destruct (conv_any _ _ _ _ _ Sl Sc Bl IHl) as [El [Al [Cl Vl]]].
    destruct (conv_any _ _ _ _ _ Sr Sc Br IHr) as [Er [Ar [Cr Vr]]].
    rewrite El, Er in H. eapply any_arith; eauto; cbn; auto.
  - inv_bind H. destruct F as [Fo [Fl Fi]].
    pose proof (ftype_any _ _ _ _ _ W Fl) as Sl. pose proof (itype_any _ _ _ _ W Fi) as Sr.
    destruct (common_signed _ _ Sl Sr) as [Sc [Bl Br]].
    specialize (IHl _ Fl eq_refl). destruct (ieval_any _ _ _ _ _ _ W R Fi E0) as [Ai Mi].
    unfold f_arith, common_args in H.
    destruct (conv_any _ _ _ _ _ Sl Sc Bl IHl) as [El [Al [Cl Vl]]].
    destruct (int_any _ _ _ _ _ _ W Fi Sc Ai Br) as [Er Ar].
    rewrite El, Er in H. rewrite Mi. eapply any_arith; eauto; cbn; auto. reflexivity.
  - inv_bind H. destruct F as [Fo [Fi Fr]].
    pose proof (ftype_any _ _ _ _ _ W Fr) as Sr. pose proof (itype_any _ _ _ _ W Fi) as Sl.
    destruct (common_signed _ _ Sl Sr) as [Sc [Bl Br]].
    specialize (IHr _ Fr eq_refl). destruct (ieval_any _ _ _ _ _ _ W R Fi E) as [Ai Mi].
    unfold f_arith, common_args in H.
    destruct (conv_any _ _ _ _ _ Sr Sc Br IHr) as [Er [Ar [Cr Vr]]].
    destruct (int_any _ _ _ _ _ _ W Fi Sc Ai Bl) as [El Al].
    rewrite El, Er in H. rewrite Mi. eapply any_arith; eauto; cbn; auto. reflexivity.
Qed.

(** ** Conditions *)

Lemma cmp_domain : forall o pos op x y, cmp_suits o pos op -> sign_ok pos x -> sign_ok pos y ->
  is_order op = true -> order_domain o (RR x y).
Proof.
  intros o pos op x y C X Y I. unfold order_domain. destruct (C I) as [P|[P|P]]; auto.
  right; left. split; auto.
Qed.
Lemma cmp_domain_ri : forall o pos op x z, cmp_int_suits o pos op -> sign_ok pos x ->
  is_order op = true -> order_domain o (RI x z).
Proof.
  intros o pos op x z C X I. unfold order_domain. destruct (C I) as [P|P]; auto.
  right; left. cbn. auto.
Qed.
Lemma cmp_domain_ir : forall o pos op x z, cmp_int_suits o pos op -> sign_ok pos x ->
  is_order op = true -> order_domain o (IR z x).
Proof.
  intros o pos op x z C X I. unfold order_domain. destruct (C I) as [P|P]; auto.
  right; left. cbn. auto.
Qed.

Lemma beval_any : forall o pos ty s q b v, any_store pos ty s -> represents s q ->
  suits_b o pos ty b -> beval (denote o) ty s b = Ok v -> v = bmeaning q b.
Proof.
  intros o pos ty s q b v W R. revert v.
  induction b as [op l r|op l i|op i r|b IH|a IHa b IHb|a IHa b IHb]; intros v F H; cbn in F, H |- *.
  - inv_bind H. destruct F as [Fo [Fl Fr]].
    pose proof (ftype_any _ _ _ _ _ W Fl) as Sl. pose proof (ftype_any _ _ _ _ _ W Fr) as Sr.
    destruct (common_signed _ _ Sl Sr) as [Sc [Bl Br]].
    pose proof (feval_any _ _ _ _ _ _ _ W R Fl E) as Ll. pose proof (feval_any _ _ _ _ _ _ _ W R Fr E0) as Lr.
    unfold f_cmp, common_args in H.
    destruct (conv_any _ _ _ _ _ Sl Sc Bl Ll) as [El [Al [Cl Vl]]].
    destruct (conv_any _ _ _ _ _ Sr Sc Br Lr) as [Er [Ar [Cr Vr]]].
    rewrite El, Er in H. eapply any_cmp; eauto; cbn; auto. eapply cmp_domain; eauto.
  - inv_bind H. destruct F as [Fo [Fl Fi]].
    pose proof (ftype_any _ _ _ _ _ W Fl) as Sl. pose proof (itype_any _ _ _ _ W Fi) as Sr.
    destruct (common_signed _ _ Sl Sr) as [Sc [Bl Br]].
    pose proof (feval_any _ _ _ _ _ _ _ W R Fl E) as Ll. destruct (ieval_any _ _ _ _ _ _ W R Fi E0) as [Ai Mi].
    unfold f_cmp, common_args in H.
    destruct (conv_any _ _ _ _ _ Sl Sc Bl Ll) as [El [Al [Cl Vl]]].
    destruct (int_any _ _ _ _ _ _ W Fi Sc Ai Br) as [Er Ar].
    rewrite El, Er in H. rewrite Mi. eapply any_cmp; eauto; cbn; auto; [eapply cmp_domain_ri; eauto|reflexivity].
  - inv_bind H. destruct F as [Fo [Fi Fr]].
    pose proof (ftype_any _ _ _ _ _ W Fr) as Sr. pose proof (itype_any _ _ _ _ W Fi) as Sl.
    destruct (common_signed _ _ Sl Sr) as [Sc [Bl Br]].
    pose proof (feval_any _ _ _ _ _ _ _ W R Fr E0) as Lr. destruct (ieval_any _ _ _ _ _ _ W R Fi E) as [Ai Mi].
    unfold f_cmp, common_args in H.
    destruct (conv_any _ _ _ _ _ Sr Sc Br Lr) as [Er [Ar [Cr Vr]]].
    destruct (int_any _ _ _ _ _ _ W Fi Sc Ai Bl) as [El Al].
    rewrite El, Er in H. rewrite Mi. eapply any_cmp; eauto; cbn; auto; [eapply cmp_domain_ir; eauto|reflexivity].
  - inv_bind H. inversion H; subst. f_equal. auto.
  - inv_bind H. rewrite <- (IHa a0) by tauto. destruct a0; cbn; [apply IHb; tauto|]. congruence.
  - inv_bind H. rewrite <- (IHa a0) by tauto. destruct a0; cbn; [congruence|]. apply IHb; tauto.
Qed.

(** ** Statements *)

Lemma write_any : forall pos ty s q x v qv, any_store pos ty s -> represents s q -> holds pos (ty x) v qv ->
  any_store pos ty (write s x v) /\ represents (write s x v) (qwrite q x qv).
Proof.
  intros pos ty s q x v qv W R [A [C V]]. split; intros y; unfold write, qwrite;
    destruct (Nat.eqb y x) eqn:E; auto.
  apply Nat.eqb_eq in E. subst. split; [apply W|auto].
Qed.

Definition any_matches (pos : bool) (ty : nat -> rep) (m : option (res store)) (r : option qstore) : Prop :=
  match m with
  | Some (Ok s) => exists q, r = Some q /\ represents s q /\ any_store pos ty s
  | Some (UB _) => True
  | None => r = None
  end.

Theorem exec_any : forall o pos ty fuel s q c, any_store pos ty s -> represents s q ->
  suits o pos ty c -> any_matches pos ty (exec (denote o) ty fuel s c) (run fuel q c).
Proof.
  intros o pos ty fuel. induction fuel as [|fuel IH]; intros s q c W R F; [reflexivity|].
  destruct c as [|x e|op x e|op x i|a b|b x y|b x]; cbn [exec run]; cbn in F.
  - cbn. eauto.
  - destruct (feval (denote o) ty s e) as [v|] eqn:E; cbn; [|exact I].
    destruct F as [F B]. pose proof (feval_any _ _ _ _ _ _ _ W R F E) as L.
    pose proof (ftype_any _ _ _ _ _ W F) as S.
    destruct (conv_any _ _ _ _ _ S (proj1 (W x)) B L) as [Ec L']. unfold f_convert. rewrite Ec.
    destruct (write_any _ _ _ _ _ _ _ W R L'). eauto.
  - destruct (feval (denote o) ty s e) as [v|] eqn:E; cbn; [|exact I].
    destruct F as [Fo [F B]]. pose proof (feval_any _ _ _ _ _ _ _ W R F E) as L.
    pose proof (ftype_any _ _ _ _ _ W F) as S.
    destruct (conv_any _ _ _ _ _ S (proj1 (W x)) B L) as [Ec [A [C V]]]. rewrite Ec, f_arith_self.
    destruct (p_arith _ _ _ _) as [r|] eqn:H; cbn; [|exact I].
    destruct (W x) as [Sx [Ax Cx]].
    destruct (write_any pos ty s q x r (exact_opt op (q x) (fmeaning q e)) W R); [|eauto].
    eapply any_arith; eauto; cbn; auto.
  - destruct (ieval ty s i) as [z|] eqn:E; cbn; [|exact I].
    destruct F as [Fo [F B]]. destruct (ieval_any _ _ _ _ _ _ W R F E) as [A M].
    destruct (int_any _ _ _ _ _ _ W F (proj1 (W x)) A B) as [Ec A']. rewrite Ec, f_arith_self.
    destruct (p_arith _ _ _ _) as [r|] eqn:H; cbn; [|exact I].
    destruct (W x) as [Sx [Ax Cx]]. rewrite M.
    destruct (write_any pos ty s q x r (exact_opt op (q x) (int_value (Some z))) W R); [|eauto].
    eapply any_arith; eauto; cbn; auto. reflexivity.
  - destruct F as [Fa Fb]. pose proof (IH s q a W R Fa) as H.
    destruct (exec (denote o) ty fuel s a) as [[s'|]|]; cbn in H.
    + destruct H as [q' [-> [R' W']]]. now apply IH.
    + exact I.
    + now rewrite H.
  - destruct (beval (denote o) ty s b) as [v|] eqn:E; [|exact I].
    rewrite (beval_any _ _ _ _ _ _ _ W R (proj1 F) E). apply IH; auto. destruct (bmeaning q b); tauto.
  - destruct (beval (denote o) ty s b) as [v|] eqn:E; [|exact I].
    rewrite (beval_any _ _ _ _ _ _ _ W R (proj1 F) E). destruct (bmeaning q b).
    + pose proof (IH s q x W R (proj2 F)) as H.
      destruct (exec (denote o) ty fuel s x) as [[s'|]|]; cbn in H.
      * destruct H as [q' [-> [R' W']]]. now apply IH.
      * exact I.
      * now rewrite H.
    + cbn. eauto.
Qed.

Theorem exec_any_agree : forall o o' pos pos' ty fuel s c s1 s2,
  any_store pos ty s -> any_store pos' ty s -> suits o pos ty c -> suits o' pos' ty c ->
  exec (denote o) ty fuel s c = Some (Ok s1) -> exec (denote o') ty fuel s c = Some (Ok s2) ->
  forall x, same_value (value (s1 x)) (value (s2 x)).
Proof.
  intros o o' pos pos' ty fuel s c s1 s2 W W' F F' H1 H2 x.
  assert (R : represents s (fun y => value (s y))) by (intros y; reflexivity).
  pose proof (exec_any o pos ty fuel s _ c W R F) as M1. rewrite H1 in M1.
  pose proof (exec_any o' pos' ty fuel s _ c W' R F') as M2. rewrite H2 in M2.
  destruct M1 as [q1 [E1 [R1 _]]], M2 as [q2 [E2 [R2 _]]].
  assert (q1 = q2) by congruence. subst q2.
  rewrite (R1 x), (R2 x). reflexivity.
Qed.
