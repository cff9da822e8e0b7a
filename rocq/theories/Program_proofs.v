(** Proofs about client programs. *)

From Coq Require Import ZArith QArith Qabs Qcanon Bool Lia.
From Verif Require Import Machine Raw Ops Spec Fraction Fmath Mixed_spec Program Program_spec Fraction_spec.
From Verif Require Import Machine_proofs Value_proofs Ops_proofs Cmp_proofs Algebra_proofs Qtrunc_proofs Laws_proofs
  Fraction_proofs Fmath_proofs Mixed_proofs.
Open Scope Z_scope.

(** ** Parts of a fraction in lowest terms *)

Lemma canonical_parts : forall r q, canonical r -> same_value (value r) (Some q) ->
  num r = Qnum (Qred q) /\ den r = Zpos (Qden (Qred q)).
Proof.
  intros r q [[N D]|[D G]] V.
  - exfalso. assert (value r = None) by now apply value_none_iff. rewrite H in V. exact V.
  - rewrite value_defined in V by lia. cbn in V.
    assert (E : Qred q = Qmake (num r) (Z.to_pos (den r))).
    { transitivity (Qred (Qmake (num r) (Z.to_pos (den r)))).
      - apply Qred_complete. rewrite <- V. destruct (den r) as [|p|p] eqn:DR; try lia. cbn [Z.to_pos].
        rewrite Qmake_Qdiv. reflexivity.
      - apply Qcanon.Qred_identity. cbn [Qnum Qden]. now rewrite Z2Pos.id by lia. }
    rewrite E. cbn [Qnum Qden]. rewrite Z2Pos.id by lia. auto.
Qed.

Lemma canonical_undefined : forall r, canonical r -> value r = None -> r = mkRaw 0 0.
Proof.
  intros [n d] [[N D]|[D G]] V; cbn in *; [subst; reflexivity|].
  apply value_none_iff in V. cbn in V. lia.
Qed.

(** ** Dividing by the undefined fraction in lowest terms *)

Lemma arith_0 : forall t, wf_rep t -> arith t 0 = Ok 0.
Proof.
  intros t W. unfold arith. assert (I : in_rep t 0 = true).
  { apply in_rep_iff. pose proof (rmin_nonpos t W). pose proof (rmax_big t W). lia. }
  destruct (rsigned t); [now rewrite I|]. f_equal. now apply wrap_id.
Qed.

Lemma reduce_00 : forall t m, wf_rep t -> reduce t (mkRaw 0 0) m = Ok (mkRaw 0 0).
Proof.
  intros t m W. now apply reduce_undefined.
Qed.

Lemma divide_by_00 : forall o t a r, wf_rep t -> wf_args t a ->
  match a with RR _ y | IR _ y => y = mkRaw 0 0 | RI _ _ => False end ->
  p_arith (denote o) t Divides a = Ok r -> value r = None.
Proof.
  induction o as [| |o IH m|o IH m]; intros t a r W A Y H; cbn [denote] in H.
  1,2: destruct a as [x y|x z|z y]; try contradiction; subst y; cbn in H;
    unfold safe_divides_rr, safe_divides_ir, fast_divides_rr, fast_divides_ir in H;
    inv_bind H; inversion H; subst; cbn in *; unfold m_mul in *;
    rewrite ?Z.mul_0_r in *; rewrite (arith_0 t W) in *;
    try reflexivity; apply value_none_iff; cbn; congruence.
  - rewrite ri_arith_eq in H. inv_bind H. rename a0 into a'.
    assert (Y' : match a' with RR _ y | IR _ y => y = mkRaw 0 0 | RI _ _ => False end /\ wf_args t a').
    { pose proof (reduce_00 t m W) as Z.
      destruct a as [x y|x z|z y]; try contradiction; subst y; cbn in A, E.
      - destruct (reduce t x m) as [x'|] eqn:X; [|discriminate]. cbn in E. rewrite Z in E. cbn in E.
        inversion E; subst. apply reduce_spec in X as [X _]; [|tauto|tauto]. cbn; tauto.
      - rewrite Z in E. cbn in E. inversion E; subst. cbn; tauto. }
    destruct Y' as [Y' A']. exact (IH t a' r W A' Y' H).
  - rewrite ro_arith_eq in H. inv_bind H. pose proof (proj1 (denote_wf o) t Divides a _ W A E) as W1.
    apply IH in E; auto. apply reduce_spec in H as [W' [R _]]; auto.
    apply value_none_iff. apply (reduces_den_zero _ _ _ R). now apply value_none_iff.
Qed.

(** ** One operator on fractions in lowest terms *)

Definition low (t : rep) (v : raw) (q : option Q) : Prop :=
  wf_raw t v /\ canonical v /\ same_value (value v) q.

Lemma int_low : forall z q, int_value (Some z) = q -> same_value (value (mkRaw z 1)) q.
Proof. intros z q <-. cbn. unfold value; cbn. field. Qed.

Lemma step_arith : forall o t op a r ql qr, signed_rep t -> output_canonical o = true -> wf_args t a ->
  match a with
  | RR x y => canonical x /\ canonical y
  | RI x _ => canonical x
  | IR _ y => canonical y
  end ->
  same_value (left_value a) ql -> same_value (right_value a) qr ->
  p_arith (denote o) t op a = Ok r -> low t r (exact_opt op ql qr).
Proof.
  intros o t op a r ql qr [W S] O A C L R H.
  split; [eapply arith_wf; eauto|]. split; [eapply denote_canonical; eauto|].
  rewrite <- L, <- R.
  destruct (right_value a) as [y|] eqn:Y.
  - rewrite <- Y. eapply denote_exact_opt; eauto. right; right. congruence.
  - destruct op; try (rewrite <- Y; eapply denote_exact_opt; eauto; left; discriminate).
    assert (N : value r = None).
    { destruct a as [l d|l z|z d]; cbn in Y; try discriminate;
        (eapply divide_by_00; eauto; cbn; apply canonical_undefined; tauto). }
    rewrite N. destruct (left_value a); exact I.
Qed.

Lemma canonical_dens : forall v, canonical v -> value v <> None -> 0 < den v.
Proof.
  intros v [[N D]|[D G]] V; auto. exfalso. apply V. now apply value_none_iff.
Qed.

Lemma step_cmp : forall o t op a b ql qr, signed_rep t -> wf_args t a ->
  match a with
  | RR x y => canonical x /\ canonical y
  | RI x _ => canonical x
  | IR _ y => canonical y
  end ->
  same_value (left_value a) ql -> same_value (right_value a) qr ->
  p_cmp (denote o) t op a = Ok b -> b = exact_cmp_opt op ql qr.
Proof.
  intros o t op a b ql qr [W S] A C L R H.
  rewrite <- L, <- R.
  destruct (left_value a) as [x|] eqn:X; [destruct (right_value a) as [y|] eqn:Y|].
  - rewrite <- X, <- Y. eapply denote_cmp_defined; eauto.
    + split; congruence.
    + right. apply order_domain_positive. destruct a; cbn in *;
        repeat split; repeat apply canonical_dens; try tauto; congruence.
  - rewrite (denote_cmp_undefined o t op a b W A); [now destruct op| |exact H].
    unfold defined_args; rewrite Y; tauto.
  - rewrite (denote_cmp_undefined o t op a b W A); [now destruct op| |exact H].
    unfold defined_args; rewrite X; tauto.
Qed.

(** ** Integers *)

Lemma itype_signed : forall ty s i, wf_store ty s -> wf_i ty i -> signed_rep (itype ty i).
Proof. intros ty s [t z|x|x|x] W I; cbn in *; try tauto; apply W. Qed.

Lemma ftype_signed : forall ty s e, wf_store ty s -> wf_f ty e -> signed_rep (ftype ty e).
Proof.
  intros ty s e W. induction e; cbn; intros F; try tauto; try apply W.
  - eapply itype_signed; eauto.
  - apply common_signed; tauto.
  - apply common_signed; [tauto|]. eapply itype_signed; eauto; tauto.
  - apply common_signed; [|tauto]. eapply itype_signed; eauto; tauto.
Qed.

Lemma ieval_sim : forall ty s q i z, wf_store ty s -> represents s q -> wf_i ty i ->
  ieval ty s i = Ok z -> in_rep (itype ty i) z = true /\ imeaning q i = Some z.
Proof.
  intros ty s q i z W R I H. destruct i as [t k|x|x|x]; cbn in *.
  - inversion H; subst. tauto.
  - inversion H; subst. destruct (W x) as [S [F C]]. split; [apply F|].
    specialize (R x). destruct (q x) as [v|].
    + apply canonical_parts in R; auto. f_equal. symmetry. apply R.
    + destruct (value (s x)) eqn:V; [contradiction|]. now rewrite (canonical_undefined _ C V).
  - inversion H; subst. destruct (W x) as [S [F C]]. split; [apply F|].
    specialize (R x). destruct (q x) as [v|].
    + apply canonical_parts in R; auto. f_equal. symmetry. apply R.
    + destruct (value (s x)) eqn:V; [contradiction|]. now rewrite (canonical_undefined _ C V).
  - destruct (W x) as [S [F C]]. pose proof H as H'. apply f_trunc_ok in H' as [D K]; auto; [|apply S].
    split.
    + subst z. apply trunc_in; auto; try apply S. intros [N E].
      destruct C as [[_ C]|[C _]]; lia.
    + specialize (R x). rewrite value_defined in R by auto. destruct (q x) as [v|]; [|contradiction].
      cbn in R. f_equal. rewrite <- R. rewrite Qtrunc_div by auto. congruence.
Qed.

Lemma int_conv : forall ty s i z c, wf_store ty s -> wf_i ty i -> signed_rep c ->
  in_rep (itype ty i) z = true -> rbits (itype ty i) <= rbits c ->
  conv_int (itype ty i) c z = z /\ in_rep c z = true.
Proof.
  intros ty s i z c W I C Z B.
  assert (E : in_rep c z = true) by exact (value_in_width _ _ _ (itype_signed _ _ _ W I) C B Z).
  split; auto. apply conv_int_id; auto. apply C.
Qed.

(** ** Expressions *)

Lemma conv_low : forall s t v q, signed_rep s -> signed_rep t -> rbits s <= rbits t ->
  low s v q -> conv_raw s t v = v /\ low t v q.
Proof.
  intros s t v q S T B [W [C V]]. destruct (conv_wide s t v) as [E W']; auto. split; auto. split; auto.
Qed.

Lemma one_rep : forall t, signed_rep t -> in_rep t 1 = true.
Proof. intros t S. now apply one_in. Qed.

Lemma feval_sim : forall o ty s q e v, output_canonical o = true -> wf_store ty s -> represents s q ->
  wf_f ty e -> feval (denote o) ty s e = Ok v -> low (ftype ty e) v (fmeaning q e).
Proof.
  intros o ty s q e v O W R. revert v.
  induction e as [x|t r|i|e IH|e IH|e IH|e IH|op l IHl r IHr|op l IHl i|op i r IHr]; intros v F H; cbn in F, H |- *.
  - inversion H; subst. destruct (W x) as [_ [A C]]. repeat split; auto; apply A.
  - inversion H; subst. destruct F as [_ [A C]]. split; [|split]; auto. reflexivity.
  - inv_bind H. inversion H; subst. pose proof (itype_signed _ _ _ W F) as S.
    destruct (ieval_sim _ _ _ _ _ W R F E) as [A M]. rewrite M.
    split; [split; auto; now apply one_rep|]. split; [right; cbn; split; [lia|apply Z.gcd_1_r]|].
    now apply int_low.
  - inv_bind H. inversion H; subst. now apply IH.
  - inv_bind H. pose proof (ftype_signed _ _ _ W F) as [S1 S2]. destruct (IH a) as [A [C V]]; auto.
    split; [eapply negate_wf; eauto|]. split; [eapply denote_negate_canonical; eauto|].
    rewrite <- V. eapply denote_negate; eauto.
  - inv_bind H. pose proof (ftype_signed _ _ _ W F) as [S1 S2]. destruct (IH a) as [A [C V]]; auto.
    assert (G : wf_raw (ftype ty e) v /\ canonical v).
    { unfold f_abs, f_negate in H. destruct (is_non_negative a); [inversion H; subst; auto|].
      split; [eapply negate_wf; eauto|eapply denote_negate_canonical; eauto]. }
    split; [tauto|]. split; [tauto|]. destruct (value a) as [x|] eqn:VA.
    + destruct (f_abs_spec _ _ _ _ S1 S2 A H x VA) as [q1 [-> Q1]].
      destruct (fmeaning q e) as [y|]; [|contradiction]. cbn in *. now rewrite Q1, V.
    + destruct (fmeaning q e); [contradiction|]. cbn.
      assert (N : value v = None).
      { unfold f_abs, f_negate in H. destruct (is_non_negative a); [inversion H; subst; auto|].
        eapply denote_negate_undef; eauto. }
      now rewrite N.
  - inv_bind H. pose proof (ftype_signed _ _ _ W F) as [S1 S2]. destruct (IH a) as [A [C V]]; auto.
    apply (reduce_spec _ _ normalize_signs_mode) in H as [A' [P _]]; auto. split; auto. split; [eapply reduces_canonical; eauto|].
    rewrite <- V. eapply reduces_same_value; eauto.
  - inv_bind H. destruct F as [Fl Fr].
    pose proof (ftype_signed _ _ _ W Fl) as Sl. pose proof (ftype_signed _ _ _ W Fr) as Sr.
    destruct (common_signed _ _ Sl Sr) as [Sc [Bl Br]].
    specialize (IHl _ Fl eq_refl). specialize (IHr _ Fr eq_refl).
    unfold f_arith, common_args in H.
    destruct (conv_low _ _ _ _ Sl Sc Bl IHl) as [El [Al [Cl Vl]]].
    destruct (conv_low _ _ _ _ Sr Sc Br IHr) as [Er [Ar [Cr Vr]]].
    rewrite El, Er in H. eapply step_arith; eauto; cbn; auto.
  - inv_bind H. destruct F as [Fl Fi].
    pose proof (ftype_signed _ _ _ W Fl) as Sl. pose proof (itype_signed _ _ _ W Fi) as Sr.
    destruct (common_signed _ _ Sl Sr) as [Sc [Bl Br]].
    specialize (IHl _ Fl eq_refl). destruct (ieval_sim _ _ _ _ _ W R Fi E0) as [Ai Mi].
    unfold f_arith, common_args in H.
    destruct (conv_low _ _ _ _ Sl Sc Bl IHl) as [El [Al [Cl Vl]]].
    destruct (int_conv _ _ _ _ _ W Fi Sc Ai Br) as [Er Ar].
    rewrite El, Er in H. rewrite Mi. eapply step_arith; eauto; cbn; auto. reflexivity.
  - inv_bind H. destruct F as [Fi Fr].
    pose proof (ftype_signed _ _ _ W Fr) as Sr. pose proof (itype_signed _ _ _ W Fi) as Sl.
    destruct (common_signed _ _ Sl Sr) as [Sc [Bl Br]].
    specialize (IHr _ Fr eq_refl). destruct (ieval_sim _ _ _ _ _ W R Fi E) as [Ai Mi].
    unfold f_arith, common_args in H.
    destruct (conv_low _ _ _ _ Sr Sc Br IHr) as [Er [Ar [Cr Vr]]].
    destruct (int_conv _ _ _ _ _ W Fi Sc Ai Bl) as [El Al].
    rewrite El, Er in H. rewrite Mi. eapply step_arith; eauto; cbn; auto. reflexivity.
Qed.

(** ** Conditions *)

Lemma beval_sim : forall o ty s q b v, output_canonical o = true -> wf_store ty s -> represents s q ->
  wf_b ty b -> beval (denote o) ty s b = Ok v -> v = bmeaning q b.
Proof.
  intros o ty s q b v O W R. revert v.
  induction b as [op l r|op l i|op i r|b IH|a IHa b IHb|a IHa b IHb]; intros v F H; cbn in F, H |- *.
  - inv_bind H. destruct F as [Fl Fr].
    pose proof (ftype_signed _ _ _ W Fl) as Sl. pose proof (ftype_signed _ _ _ W Fr) as Sr.
    destruct (common_signed _ _ Sl Sr) as [Sc [Bl Br]].
    pose proof (feval_sim _ _ _ _ _ _ O W R Fl E) as Ll. pose proof (feval_sim _ _ _ _ _ _ O W R Fr E0) as Lr.
    unfold f_cmp, common_args in H.
    destruct (conv_low _ _ _ _ Sl Sc Bl Ll) as [El [Al [Cl Vl]]].
    destruct (conv_low _ _ _ _ Sr Sc Br Lr) as [Er [Ar [Cr Vr]]].
    rewrite El, Er in H. eapply step_cmp; eauto; cbn; auto.
  - inv_bind H. destruct F as [Fl Fi].
    pose proof (ftype_signed _ _ _ W Fl) as Sl. pose proof (itype_signed _ _ _ W Fi) as Sr.
    destruct (common_signed _ _ Sl Sr) as [Sc [Bl Br]].
    pose proof (feval_sim _ _ _ _ _ _ O W R Fl E) as Ll. destruct (ieval_sim _ _ _ _ _ W R Fi E0) as [Ai Mi].
    unfold f_cmp, common_args in H.
    destruct (conv_low _ _ _ _ Sl Sc Bl Ll) as [El [Al [Cl Vl]]].
    destruct (int_conv _ _ _ _ _ W Fi Sc Ai Br) as [Er Ar].
    rewrite El, Er in H. rewrite Mi. eapply step_cmp; eauto; cbn; auto. reflexivity.
  - inv_bind H. destruct F as [Fi Fr].
    pose proof (ftype_signed _ _ _ W Fr) as Sr. pose proof (itype_signed _ _ _ W Fi) as Sl.
    destruct (common_signed _ _ Sl Sr) as [Sc [Bl Br]].
    pose proof (feval_sim _ _ _ _ _ _ O W R Fr E0) as Lr. destruct (ieval_sim _ _ _ _ _ W R Fi E) as [Ai Mi].
    unfold f_cmp, common_args in H.
    destruct (conv_low _ _ _ _ Sr Sc Br Lr) as [Er [Ar [Cr Vr]]].
    destruct (int_conv _ _ _ _ _ W Fi Sc Ai Bl) as [El Al].
    rewrite El, Er in H. rewrite Mi. eapply step_cmp; eauto; cbn; auto. reflexivity.
  - inv_bind H. inversion H; subst. f_equal. auto.
  - inv_bind H. rewrite <- (IHa a0) by tauto. destruct a0; cbn; [apply IHb; tauto|]. congruence.
  - inv_bind H. rewrite <- (IHa a0) by tauto. destruct a0; cbn; [congruence|]. apply IHb; tauto.
Qed.

(** ** Statements *)

Lemma write_sim : forall ty s q x v qv, wf_store ty s -> represents s q -> low (ty x) v qv ->
  wf_store ty (write s x v) /\ represents (write s x v) (qwrite q x qv).
Proof.
  intros ty s q x v qv W R [A [C V]]. split; intros y; unfold write, qwrite;
    destruct (Nat.eqb y x) eqn:E; auto.
  apply Nat.eqb_eq in E. subst. split; [apply W|auto].
Qed.

Definition outcome_matches (ty : nat -> rep) (m : option (res store)) (r : option qstore) : Prop :=
  match m with
  | Some (Ok s) => exists q, r = Some q /\ represents s q /\ wf_store ty s
  | Some (UB _) => True
  | None => r = None
  end.

Theorem exec_sim : forall o ty fuel s q c, output_canonical o = true -> wf_store ty s -> represents s q ->
  wf_s ty c -> outcome_matches ty (exec (denote o) ty fuel s c) (run fuel q c).
Proof.
  intros o ty fuel. induction fuel as [|fuel IH]; intros s q c O W R F; [reflexivity|].
  destruct c as [|x e|op x e|op x i|a b|b x y|b x]; cbn [exec run]; cbn in F.
  - cbn. eauto.
  - destruct (feval (denote o) ty s e) as [v|] eqn:E; cbn; [|exact I].
    destruct F as [F B]. pose proof (feval_sim _ _ _ _ _ _ O W R F E) as L.
    pose proof (ftype_signed _ _ _ W F) as S.
    destruct (conv_low _ _ _ _ S (proj1 (W x)) B L) as [Ec L']. unfold f_convert. rewrite Ec.
    destruct (write_sim _ _ _ _ _ _ W R L'). eauto.
  - destruct (feval (denote o) ty s e) as [v|] eqn:E; cbn; [|exact I].
    destruct F as [F B]. pose proof (feval_sim _ _ _ _ _ _ O W R F E) as L.
    pose proof (ftype_signed _ _ _ W F) as S.
    destruct (conv_low _ _ _ _ S (proj1 (W x)) B L) as [Ec [A [C V]]]. rewrite Ec, f_arith_self.
    destruct (p_arith _ _ _ _) as [r|] eqn:H; cbn; [|exact I].
    destruct (W x) as [Sx [Ax Cx]].
    destruct (write_sim ty s q x r (exact_opt op (q x) (fmeaning q e)) W R); [|eauto].
    eapply step_arith; eauto; cbn; auto.
  - destruct (ieval ty s i) as [z|] eqn:E; cbn; [|exact I].
    destruct F as [F B]. destruct (ieval_sim _ _ _ _ _ W R F E) as [A M].
    destruct (int_conv _ _ _ _ _ W F (proj1 (W x)) A B) as [Ec A']. rewrite Ec, f_arith_self.
    destruct (p_arith _ _ _ _) as [r|] eqn:H; cbn; [|exact I].
    destruct (W x) as [Sx [Ax Cx]]. rewrite M.
    destruct (write_sim ty s q x r (exact_opt op (q x) (int_value (Some z))) W R); [|eauto].
    eapply step_arith; eauto; cbn; auto. reflexivity.
  - destruct F as [Fa Fb]. pose proof (IH s q a O W R Fa) as H.
    destruct (exec (denote o) ty fuel s a) as [[s'|]|]; cbn in H.
    + destruct H as [q' [-> [R' W']]]. now apply IH.
    + exact I.
    + now rewrite H.
  - destruct (beval (denote o) ty s b) as [v|] eqn:E; [|exact I].
    rewrite (beval_sim _ _ _ _ _ _ O W R (proj1 F) E). apply IH; auto. destruct (bmeaning q b); tauto.
  - destruct (beval (denote o) ty s b) as [v|] eqn:E; [|exact I].
    rewrite (beval_sim _ _ _ _ _ _ O W R (proj1 F) E). destruct (bmeaning q b).
    + pose proof (IH s q x O W R (proj2 F)) as H.
      destruct (exec (denote o) ty fuel s x) as [[s'|]|]; cbn in H.
      * destruct H as [q' [-> [R' W']]]. now apply IH.
      * exact I.
      * now rewrite H.
    + cbn. eauto.
Qed.

Theorem exec_policies : forall o o' ty fuel s c s1 s2,
  output_canonical o = true -> output_canonical o' = true -> wf_store ty s -> wf_s ty c ->
  exec (denote o) ty fuel s c = Some (Ok s1) -> exec (denote o') ty fuel s c = Some (Ok s2) ->
  forall x, s1 x = s2 x.
Proof.
  intros o o' ty fuel s c s1 s2 O O' W F H1 H2 x.
  assert (R : represents s (fun y => value (s y))) by (intros y; reflexivity).
  pose proof (exec_sim o ty fuel s _ c O W R F) as M1. rewrite H1 in M1.
  pose proof (exec_sim o' ty fuel s _ c O' W R F) as M2. rewrite H2 in M2.
  destruct M1 as [q1 [E1 [R1 W1]]], M2 as [q2 [E2 [R2 W2]]].
  assert (q1 = q2) by congruence. subst q2.
  apply canonical_unique; [apply W1|apply W2|]. rewrite (R1 x), (R2 x). reflexivity.
Qed.
