(** Proofs about programs that write the parts of fractions. *)

From Coq Require Import ZArith QArith Bool Lia.
From Verif Require Import Machine Raw Ops Spec Fraction Fmath Mixed_spec Program2_spec Fraction_spec Parts Parts_spec.
From Verif Require Import Machine_proofs Value_proofs Ops_proofs Cmp_proofs Order_proofs Algebra_proofs Fraction_proofs
  Fmath_proofs Mixed_proofs Program_proofs Program3_proofs.
Open Scope Z_scope.

Lemma cell_eqb_spec : forall a b, reflect (a = b) (cell_eqb a b).
Proof.
  intros [x|x|x] [y|y|y]; cbn; try (constructor; congruence);
    destruct (Nat.eqb_spec x y); constructor; congruence.
Qed.

(** ** Lowest terms *)

Lemma lowest_of : forall r q, canonical r -> same_value (value r) q -> r = lowest q.
Proof.
  intros r [q|] C V.
  - destruct (canonical_parts _ _ C V) as [N D]. destruct r. cbn in *. now subst.
  - apply canonical_undefined; auto. destruct (value r); [contradiction|reflexivity].
Qed.

(** ** Integers *)

Lemma pint_ty_signed : forall G m i, wf_mem G m -> wf_pint i -> signed_rep (pint_ty G i).
Proof.
  intros G m i W. induction i as [s z|c|x|op i IHi j IHj]; cbn; intros F; try tauto.
  - apply W.
  - apply (W (NumOf x)).
  - apply common_signed; tauto.
Qed.

Lemma get_wf : forall G m x, wf_mem G m -> signed_rep (frac_ty G x) /\ wf_raw (frac_ty G x) (get_frac m x).
Proof.
  intros G m x W. split; [apply (W (NumOf x))|]. split; [apply (W (NumOf x))|apply (W (DenOf x))].
Qed.

Lemma int_arith_ok : forall t op a b r, signed_rep t -> int_arith t op a b = Ok r ->
  r = int_mean op a b /\ (in_rep t a = true -> in_rep t r = true).
Proof.
  intros t op a b r [W S] H.
  assert (K : forall v r, arith t v = Ok r -> r = v /\ in_rep t r = true).
  { intros v r0 E. pose proof (arith_result_in _ _ _ W E). unfold arith in E. rewrite S in E.
    destruct (in_rep t v); [|discriminate]. inversion E; subst. auto. }
  destruct op; cbn in H |- *; unfold m_add, m_sub, m_mul, m_div, m_rem in H.
  1,2,3: apply K in H; tauto.
  - destruct (b =? 0); [discriminate|]. apply K in H; tauto.
  - destruct (b =? 0) eqn:B; [discriminate|]. apply Z.eqb_neq in B. inv_bind H. inversion H; subst. split; auto.
    intros A. apply in_rep_iff in A. apply in_rep_iff.
    pose proof (Z.rem_sign_mul a b B) as Sg. pose proof (Z.rem_bound_abs a b B).
    assert (Z.abs (Z.rem a b) <= Z.abs a).
    { rewrite <- Z.rem_abs by auto. apply Z.rem_le; lia. }
    pose proof (rmin_nonpos t W). pose proof (rmax_big t W). nia.
Qed.

Lemma conv_int_wide : forall s t z, signed_rep s -> signed_rep t -> rbits s <= rbits t -> in_rep s z = true ->
  conv_int s t z = z /\ in_rep t z = true.
Proof.
  intros s t z S T B Z. assert (E : in_rep t z = true) by exact (value_in_width _ _ _ S T B Z).
  split; auto. apply conv_int_id; auto. apply T.
Qed.

Lemma pint_sim : forall G m n i z, wf_mem G m -> (forall c, m c = n c) -> wf_pint i ->
  pint_eval G m i = Ok z -> z = pint_mean n i /\ in_rep (pint_ty G i) z = true.
Proof.
  intros G m n i z W R. revert z. induction i as [s k|c|x|op i IHi j IHj]; intros z F H; cbn in F, H |- *.
  - inversion H; subst. tauto.
  - inversion H; subst. split; [apply R|apply W].
  - destruct (get_wf G m x W) as [[S1 S2] A]. split; [|eapply f_trunc_in; eauto].
    apply f_trunc_ok in H as [_ ->]; auto. cbn. now rewrite !R.
  - inv_bind H. destruct F as [Fi Fj]. destruct (IHi _ Fi eq_refl) as [-> Ai], (IHj _ Fj eq_refl) as [-> Aj].
    pose proof (pint_ty_signed _ _ _ W Fi) as Si. pose proof (pint_ty_signed _ _ _ W Fj) as Sj.
    destruct (common_signed _ _ Si Sj) as [Sc [Bi Bj]].
    destruct (conv_int_wide _ _ _ Si Sc Bi Ai) as [Ei Ci], (conv_int_wide _ _ _ Sj Sc Bj Aj) as [Ej Cj].
    rewrite Ei, Ej in H. apply int_arith_ok in H as [E' C]; auto.
Qed.

(** ** Fractions *)

Lemma pfrac_ty_signed : forall o G m e, wf_mem G m -> wf_pfrac o G e -> signed_rep (pfrac_ty G e).
Proof.
  intros o G m e W. induction e; cbn; intros F; try tauto.
  - apply (W (NumOf x)).
  - apply common_signed; tauto.
  - apply common_signed; [tauto|]. eapply pint_ty_signed; eauto; tauto.
  - apply common_signed; [|tauto]. eapply pint_ty_signed; eauto; tauto.
Qed.

Lemma arith_lowest : forall o t op a r, output_canonical o = true -> arith_suits o false op -> signed_rep t -> wf_args t a ->
  p_arith (denote o) t op a = Ok r -> wf_raw t r /\ r = lowest (exact_opt op (left_value a) (right_value a)).
Proof.
  intros o t op a r O A [W S] F H. split; [eapply arith_wf; eauto|].
  apply lowest_of; [eapply denote_canonical; eauto|]. eapply denote_exact_opt; eauto.
  destruct A as [A|[_ A]]; auto.
Qed.

Lemma pfrac_sim : forall o G m n e v, output_canonical o = true -> wf_mem G m -> (forall c, m c = n c) ->
  wf_pfrac o G e -> pfrac_eval (denote o) G m e = Ok v -> wf_raw (pfrac_ty G e) v /\ v = pfrac_mean n e.
Proof.
  intros o G m n e v O W R. revert v.
  induction e as [x|t r|t i j|e IH|e IH|e IH|op l IHl r IHr|op l IHl i|op i r IHr]; intros v F H; cbn in F, H |- *.
  - inversion H; subst. split; [apply get_wf; auto|]. unfold get_frac, pair_at. now rewrite !R.
  - inversion H; subst. tauto.
  - inv_bind H. inversion H; subst. destruct F as [T [Fi [Fj [Bi Bj]]]].
    destruct (pint_sim _ _ _ _ _ W R Fi E) as [-> Ai], (pint_sim _ _ _ _ _ W R Fj E0) as [-> Aj].
    destruct (conv_int_wide _ _ _ (pint_ty_signed _ _ _ W Fi) T Bi Ai) as [Ei Ci].
    destruct (conv_int_wide _ _ _ (pint_ty_signed _ _ _ W Fj) T Bj Aj) as [Ej Cj].
    rewrite Ei, Ej. split; auto. split; auto.
  - inv_bind H. pose proof (pfrac_ty_signed _ _ _ _ W F) as [S1 S2]. destruct (IH _ F eq_refl) as [A ->].
    unfold f_negate in H. split; [eapply negate_wf; eauto|].
    apply lowest_of; [eapply denote_negate_canonical; eauto|]. eapply denote_negate; eauto.
  - inv_bind H. pose proof (pfrac_ty_signed _ _ _ _ W F) as [S1 S2]. destruct (IH _ F eq_refl) as [A ->].
    apply (reduce_spec _ _ normalize_signs_mode) in H as [A' [P _]]; auto. split; auto.
    apply lowest_of; [eapply reduces_canonical; eauto|eapply reduces_same_value; eauto].
  - inv_bind H. inversion H; subst. destruct (IH _ F eq_refl) as [[A1 A2] ->]. split; [split; auto|reflexivity].
  - inv_bind H. destruct F as [Fo [Fl Fr]]. destruct (IHl _ Fl eq_refl) as [Al ->], (IHr _ Fr eq_refl) as [Ar ->].
    pose proof (pfrac_ty_signed _ _ _ _ W Fl) as Sl. pose proof (pfrac_ty_signed _ _ _ _ W Fr) as Sr.
    destruct (common_signed _ _ Sl Sr) as [Sc [Bl Br]].
    destruct (conv_wide _ _ _ Sl Sc Bl Al) as [El Cl], (conv_wide _ _ _ Sr Sc Br Ar) as [Er Cr].
    unfold f_convert in El, Er. unfold f_arith, common_args in H. rewrite El, Er in H.
    apply arith_lowest in H; auto. split; auto.
  - inv_bind H. destruct F as [Fo [Fl Fi]]. destruct (IHl _ Fl eq_refl) as [Al ->], (pint_sim _ _ _ _ _ W R Fi E0) as [-> Ai].
    pose proof (pfrac_ty_signed _ _ _ _ W Fl) as Sl. pose proof (pint_ty_signed _ _ _ W Fi) as Sr.
    destruct (common_signed _ _ Sl Sr) as [Sc [Bl Br]].
    destruct (conv_wide _ _ _ Sl Sc Bl Al) as [El Cl], (conv_int_wide _ _ _ Sr Sc Br Ai) as [Er Cr].
    unfold f_convert in El. unfold f_arith, common_args in H. rewrite El, Er in H.
    apply arith_lowest in H; auto. split; auto.
  - inv_bind H. destruct F as [Fo [Fi Fr]]. destruct (IHr _ Fr eq_refl) as [Ar ->], (pint_sim _ _ _ _ _ W R Fi E) as [-> Ai].
    pose proof (pfrac_ty_signed _ _ _ _ W Fr) as Sr. pose proof (pint_ty_signed _ _ _ W Fi) as Sl.
    destruct (common_signed _ _ Sl Sr) as [Sc [Bl Br]].
    destruct (conv_wide _ _ _ Sr Sc Br Ar) as [Er Cr], (conv_int_wide _ _ _ Sl Sc Bl Ai) as [El Cl].
    unfold f_convert in Er. unfold f_arith, common_args in H. rewrite El, Er in H.
    apply arith_lowest in H; auto. split; auto.
Qed.

(** ** Conditions *)

Lemma int_cmp_exact : forall op a b, int_cmp op a b = exact_cmp op (inject_Z a) (inject_Z b).
Proof.
  assert (L : forall a b, Qle_bool (inject_Z a) (inject_Z b) = (a <=? b)).
  { intros a b. apply eq_true_iff_eq. rewrite Qle_bool_iff, <- Zle_Qle. symmetry. apply Z.leb_le. }
  assert (Q : forall a b, Qeq_bool (inject_Z a) (inject_Z b) = (a =? b)).
  { intros a b. apply eq_true_iff_eq. rewrite Qeq_bool_iff, inject_Z_injective. symmetry. apply Z.eqb_eq. }
  intros [] a b; cbn; rewrite ?L, ?Q; auto; now rewrite Z.ltb_antisym.
Qed.

Lemma no_sign : forall r, sign_ok false r.
Proof. intros r H. discriminate. Qed.

Lemma pcond_sim : forall o G m n b v, output_canonical o = true -> wf_mem G m -> (forall c, m c = n c) ->
  wf_pcond o G b -> pcond_eval (denote o) G m b = Ok v -> v = pcond_mean n b.
Proof.
  intros o G m n b v O W R. revert v.
  induction b as [op l r|op l i|op i r|op i j|b IH|a IHa b IHb|a IHa b IHb]; intros v F H; cbn in F, H |- *.
  - inv_bind H. destruct F as [Fo [Fl Fr]].
    destruct (pfrac_sim _ _ _ _ _ _ O W R Fl E) as [Al ->], (pfrac_sim _ _ _ _ _ _ O W R Fr E0) as [Ar ->].
    pose proof (pfrac_ty_signed _ _ _ _ W Fl) as Sl. pose proof (pfrac_ty_signed _ _ _ _ W Fr) as Sr.
    destruct (common_signed _ _ Sl Sr) as [Sc [Bl Br]].
    destruct (conv_wide _ _ _ Sl Sc Bl Al) as [El Cl], (conv_wide _ _ _ Sr Sc Br Ar) as [Er Cr].
    unfold f_convert in El, Er. unfold f_cmp, common_args in H. rewrite El, Er in H.
    refine (any_cmp o _ op _ v _ _ Sc _ _ _ _ H); [split; auto| |reflexivity|reflexivity]. intros I. eapply cmp_domain; eauto using no_sign.
  - inv_bind H. destruct F as [Fo [Fl Fi]].
    destruct (pfrac_sim _ _ _ _ _ _ O W R Fl E) as [Al ->], (pint_sim _ _ _ _ _ W R Fi E0) as [-> Ai].
    pose proof (pfrac_ty_signed _ _ _ _ W Fl) as Sl. pose proof (pint_ty_signed _ _ _ W Fi) as Sr.
    destruct (common_signed _ _ Sl Sr) as [Sc [Bl Br]].
    destruct (conv_wide _ _ _ Sl Sc Bl Al) as [El Cl], (conv_int_wide _ _ _ Sr Sc Br Ai) as [Er Cr].
    unfold f_convert in El. unfold f_cmp, common_args in H. rewrite El, Er in H.
    refine (any_cmp o _ op _ v _ _ Sc _ _ _ _ H); [split; auto| |reflexivity|reflexivity]. intros I. eapply cmp_domain_ri; eauto using no_sign.
  - inv_bind H. destruct F as [Fo [Fi Fr]].
    destruct (pfrac_sim _ _ _ _ _ _ O W R Fr E0) as [Ar ->], (pint_sim _ _ _ _ _ W R Fi E) as [-> Ai].
    pose proof (pfrac_ty_signed _ _ _ _ W Fr) as Sr. pose proof (pint_ty_signed _ _ _ W Fi) as Sl.
    destruct (common_signed _ _ Sl Sr) as [Sc [Bl Br]].
    destruct (conv_wide _ _ _ Sr Sc Br Ar) as [Er Cr], (conv_int_wide _ _ _ Sl Sc Bl Ai) as [El Cl].
    unfold f_convert in Er. unfold f_cmp, common_args in H. rewrite El, Er in H.
    refine (any_cmp o _ op _ v (Some (inject_Z (pint_mean n i))) (value (pfrac_mean n r)) Sc _ _ _ _ H); [split; auto| |reflexivity|reflexivity]. intros I. eapply cmp_domain_ir; eauto using no_sign.
  - inv_bind H. destruct F as [Fi Fj].
    destruct (pint_sim _ _ _ _ _ W R Fi E) as [-> Ai], (pint_sim _ _ _ _ _ W R Fj E0) as [-> Aj].
    pose proof (pint_ty_signed _ _ _ W Fi) as Si. pose proof (pint_ty_signed _ _ _ W Fj) as Sj.
    destruct (common_signed _ _ Si Sj) as [Sc [Bi Bj]].
    destruct (conv_int_wide _ _ _ Si Sc Bi Ai) as [Ei Ci], (conv_int_wide _ _ _ Sj Sc Bj Aj) as [Ej Cj].
    rewrite Ei, Ej, int_cmp_exact in H. congruence.
  - inv_bind H. inversion H; subst. f_equal. auto.
  - inv_bind H. rewrite <- (IHa a0) by tauto. destruct a0; cbn; [apply IHb; tauto|]. congruence.
  - inv_bind H. rewrite <- (IHa a0) by tauto. destruct a0; cbn; [congruence|]. apply IHb; tauto.
Qed.

(** ** Statements *)

Lemma put_wf : forall G m c z, wf_mem G m -> in_rep (cell_ty G c) z = true -> wf_mem G (put m c z).
Proof.
  intros G m c z W Z d. unfold put. destruct (cell_eqb_spec d c) as [->|]; [split; auto; apply W|apply W].
Qed.
Lemma put_frac_wf : forall G m x v, wf_mem G m -> wf_raw (frac_ty G x) v -> wf_mem G (put_frac m x v).
Proof. intros G m x v W [A B]. apply put_wf; [apply put_wf; auto|auto]. Qed.
Lemma put_same : forall m n c z, (forall d, m d = n d) -> forall d, put m c z d = write_int n c z d.
Proof. intros m n c z R d. unfold put, write_int. destruct (cell_eqb d c); auto. Qed.
Lemma put_frac_same : forall m n x v, (forall d, m d = n d) -> forall d, put_frac m x v d = write_pair n x v d.
Proof.
  intros m n x v R d. unfold put_frac, put, write_pair. destruct d; cbn; auto; destruct (Nat.eqb _ _); auto.
Qed.

Definition parts_match (G : types) (m : option (res mem)) (r : option zmem) : Prop :=
  match m with
  | Some (Ok m) => exists n, r = Some n /\ (forall c, m c = n c) /\ wf_mem G m
  | Some (UB _) => True
  | None => r = None
  end.

Theorem pexec_sim : forall o G fuel m n c, output_canonical o = true -> wf_mem G m -> (forall c, m c = n c) ->
  wf_pstmt o G c -> parts_match G (pexec (denote o) G fuel m c) (prun fuel n c).
Proof.
  intros o G fuel. induction fuel as [|fuel IH]; intros m n c O W R F; [reflexivity|].
  destruct c as [|c i|op c i|x e|op x e|op x i|x y|a b|b x y|b x]; cbn [pexec prun]; cbn in F.
  - cbn. eauto.
  - destruct (pint_eval G m i) as [z|] eqn:E; cbn; [|exact I]. destruct F as [F B].
    destruct (pint_sim _ _ _ _ _ W R F E) as [-> A].
    destruct (conv_int_wide _ _ _ (pint_ty_signed _ _ _ W F) (proj1 (W c)) B A) as [Ec C]. rewrite Ec.
    eexists. split; [reflexivity|]. split; [now apply put_same|now apply put_wf].
  - destruct (pint_eval G m i) as [z|] eqn:E; cbn; [|exact I]. destruct F as [F B].
    destruct (pint_sim _ _ _ _ _ W R F E) as [-> A].
    destruct (W c) as [Sc Ac]. pose proof (pint_ty_signed _ _ _ W F) as Si.
    destruct (common_signed _ _ Sc Si) as [St [Bc Bi]].
    assert (T : common_rep (cell_ty G c) (pint_ty G i) = cell_ty G c).
    { unfold common_rep. destruct Sc as [_ ->], Si as [_ ->]. cbn.
      destruct (Z.ltb_spec (rbits (cell_ty G c)) (rbits (pint_ty G i))); [lia|reflexivity]. }
    rewrite T in *.
    destruct (conv_int_wide _ _ _ Si Sc B A) as [Ec C]. rewrite Ec.
    assert (K : forall z, conv_int (cell_ty G c) (cell_ty G c) z = z)
      by (intros; unfold conv_int; now rewrite rep_eqb_refl).
    rewrite !K. destruct (int_arith _ _ _ _) as [r|] eqn:X; cbn; [|exact I]. rewrite K.
    apply int_arith_ok in X as [-> Ar]; auto.
    eexists. split; [reflexivity|]. split; [rewrite R; now apply put_same|apply put_wf; auto].
  - destruct (pfrac_eval _ G m e) as [v|] eqn:E; cbn; [|exact I]. destruct F as [F B].
    destruct (pfrac_sim _ _ _ _ _ _ O W R F E) as [A ->].
    destruct (conv_wide _ _ _ (pfrac_ty_signed _ _ _ _ W F) (proj1 (get_wf _ _ x W)) B A) as [Ec C]. rewrite Ec.
    eexists. split; [reflexivity|]. split; [now apply put_frac_same|now apply put_frac_wf].
  - destruct (pfrac_eval _ G m e) as [v|] eqn:E; cbn; [|exact I]. destruct F as [Fo [F B]].
    destruct (pfrac_sim _ _ _ _ _ _ O W R F E) as [A ->]. destruct (get_wf _ _ x W) as [Sx Ax].
    destruct (conv_wide _ _ _ (pfrac_ty_signed _ _ _ _ W F) Sx B A) as [Ec C]. unfold f_convert in Ec.
    rewrite Ec, f_arith_self. destruct (p_arith _ _ _ _) as [r|] eqn:X; cbn; [|exact I].
    apply arith_lowest in X as [Wr ->]; auto; [|split; auto]. cbn [left_value right_value].
    assert (P : get_frac m x = pair_at n x) by (unfold get_frac, pair_at; now rewrite !R). rewrite P in *.
    eexists. split; [reflexivity|]. split; [now apply put_frac_same|now apply put_frac_wf].
  - destruct (pint_eval G m i) as [z|] eqn:E; cbn; [|exact I]. destruct F as [Fo [F B]].
    destruct (pint_sim _ _ _ _ _ W R F E) as [-> A]. destruct (get_wf _ _ x W) as [Sx Ax].
    destruct (conv_int_wide _ _ _ (pint_ty_signed _ _ _ W F) Sx B A) as [Ec C].
    rewrite Ec, f_arith_self. destruct (p_arith _ _ _ _) as [r|] eqn:X; cbn; [|exact I].
    apply arith_lowest in X as [Wr ->]; auto; [|split; auto]. cbn [left_value right_value].
    assert (P : get_frac m x = pair_at n x) by (unfold get_frac, pair_at; now rewrite !R). rewrite P in *.
    eexists. split; [reflexivity|]. split; [now apply put_frac_same|now apply put_frac_wf].
  - cbn. destruct (get_wf _ _ x W) as [Sx Ax], (get_wf _ _ y W) as [Sy Ay].
    destruct (conv_wide _ _ _ Sy Sx F Ay) as [Ec C]. unfold f_convert in Ec. rewrite Ec.
    assert (P : get_frac m y = pair_at n y) by (unfold get_frac, pair_at; now rewrite !R). rewrite P in *.
    eexists. split; [reflexivity|]. split; [now apply put_frac_same|now apply put_frac_wf].
  - destruct F as [Fa Fb]. pose proof (IH m n a O W R Fa) as H.
    destruct (pexec (denote o) G fuel m a) as [[m'|]|]; cbn in H.
    + destruct H as [n' [-> [R' W']]]. now apply IH.
    + exact I.
    + now rewrite H.
  - destruct (pcond_eval (denote o) G m b) as [v|] eqn:E; [|exact I].
    rewrite (pcond_sim _ _ _ _ _ _ O W R (proj1 F) E). apply IH; auto. destruct (pcond_mean n b); tauto.
  - destruct (pcond_eval (denote o) G m b) as [v|] eqn:E; [|exact I].
    rewrite (pcond_sim _ _ _ _ _ _ O W R (proj1 F) E). destruct (pcond_mean n b).
    + pose proof (IH m n x O W R (proj2 F)) as H.
      destruct (pexec (denote o) G fuel m x) as [[m'|]|]; cbn in H.
      * destruct H as [n' [-> [R' W']]]. now apply IH.
      * exact I.
      * now rewrite H.
    + cbn. eauto.
Qed.

(** ** What is not written does not change *)

Theorem pexec_frame : forall p G fuel m c m' d, pexec p G fuel m c = Some (Ok m') -> ~ may_write c d -> m' d = m d.
Proof.
  intros p G fuel. induction fuel as [|fuel IH]; intros m c m' d H N; [discriminate|].
  assert (P : forall m c z, ~ d = c -> put m c z d = m d).
  { intros m0 c0 z K. unfold put. destruct (cell_eqb_spec d c0); [contradiction|reflexivity]. }
  assert (PF : forall m x v, ~ (d = NumOf x \/ d = DenOf x) -> put_frac m x v d = m d).
  { intros m0 x v K. unfold put_frac. rewrite P by tauto. apply P. tauto. }
  destruct c as [|c i|op c i|x e|op x e|op x i|x y|a b|b x y|b x]; cbn [pexec] in H; cbn in N.
  - now inversion H.
  - injection H as H. inv_bind H. inversion H; subst. now apply P.
  - injection H as H. inv_bind H. inversion H; subst. now apply P.
  - injection H as H. inv_bind H. inversion H; subst. now apply PF.
  - injection H as H. inv_bind H. inversion H; subst. now apply PF.
  - injection H as H. inv_bind H. inversion H; subst. now apply PF.
  - inversion H; subst. now apply PF.
  - destruct (pexec p G fuel m a) as [[m1|]|] eqn:E; try discriminate.
    rewrite (IH _ _ _ d H) by tauto. apply (IH _ _ _ d E). tauto.
  - destruct (pcond_eval p G m b) as [[]|]; try discriminate; apply (IH _ _ _ d H); tauto.
  - destruct (pcond_eval p G m b) as [[]|]; try discriminate; [|now inversion H].
    destruct (pexec p G fuel m x) as [[m1|]|] eqn:E; try discriminate.
    rewrite (IH _ _ _ d H) by (cbn; tauto). apply (IH _ _ _ d E). tauto.
Qed.

(** ** Operands that are parts of the variable assigned to *)

Theorem alias_part : forall p G m op x c k, int_ty G k = cell_ty G c ->
  match pexec p G 1 m (PCompoundInt op x (PRead c)),
        pexec p G 2 m (PSeq (PSet (IntVar k) (PRead c)) (PCompoundInt op x (PRead (IntVar k)))) with
  | Some (Ok m1), Some (Ok m2) => forall d, d <> IntVar k -> m1 d = m2 d
  | Some (UB u1), Some (UB u2) => u1 = u2
  | _, _ => False
  end.
Proof.
  intros p G m op x c k T. cbn [pexec pint_eval bind pint_ty cell_ty]. rewrite T.
  assert (K : forall t z, conv_int t t z = z) by (intros; unfold conv_int; now rewrite rep_eqb_refl).
  rewrite K.
  assert (A : get_frac (put m (IntVar k) (m c)) x = get_frac m x) by reflexivity. rewrite A.
  assert (B : put m (IntVar k) (m c) (IntVar k) = m c) by (unfold put; cbn; now rewrite Nat.eqb_refl). rewrite B.
  destruct (f_assign _ _ _ _ _) as [r|u]; cbn [bind]; auto.
  intros d D. unfold put_frac, put. destruct d as [y|y|y]; cbn; auto. destruct (Nat.eqb_spec y k); congruence.
Qed.

Theorem alias_self : forall p G m op x y, frac_ty G y = frac_ty G x -> y <> x ->
  match pexec p G 1 m (PCompound op x (PVar x)),
        pexec p G 2 m (PSeq (PAssign y (PVar x)) (PCompound op x (PVar y))) with
  | Some (Ok m1), Some (Ok m2) => forall d, d <> NumOf y -> d <> DenOf y -> m1 d = m2 d
  | Some (UB u1), Some (UB u2) => u1 = u2
  | _, _ => False
  end.
Proof.
  intros p G m op x y T N. cbn [pexec pfrac_eval bind pfrac_ty]. rewrite T.
  assert (K : forall t z, f_convert t t z = z) by (intros; unfold f_convert, conv_raw; now rewrite rep_eqb_refl).
  rewrite K.
  assert (A : get_frac (put_frac m y (get_frac m x)) x = get_frac m x).
  { unfold get_frac, put_frac, put. cbn. apply Nat.eqb_neq in N. rewrite Nat.eqb_sym in N. now rewrite N. }
  assert (B : get_frac (put_frac m y (get_frac m x)) y = get_frac m x).
  { unfold get_frac, put_frac, put. cbn. now rewrite Nat.eqb_refl. }
  rewrite A, B. destruct (f_assign _ _ _ _ _) as [r|u]; cbn [bind]; auto.
  intros d D1 D2. unfold put_frac, put. destruct d as [z|z|z]; cbn; auto.
  - destruct (Nat.eqb_spec z x); auto. destruct (Nat.eqb_spec z y); congruence.
  - destruct (Nat.eqb_spec z x); auto. destruct (Nat.eqb_spec z y); congruence.
Qed.

(** ** Halving *)

Lemma halving_step : forall p G s m fuel, wf_mem G m -> frac_ty G 0 = s -> int_ty G 0 = s ->
  0 < m (IntVar 0) -> 0 < m (DenOf 0) -> 2 * m (DenOf 0) <= rmax s ->
  exists m', pexec p G (S (S (S fuel))) m (halving s) = pexec p G (S (S fuel)) m' (halving s) /\ wf_mem G m' /\
    m' (NumOf 0) = m (NumOf 0) /\ m' (DenOf 0) = 2 * m (DenOf 0) /\ m' (IntVar 0) = m (IntVar 0) - 1 /\
    forall d, d <> DenOf 0 -> d <> IntVar 0 -> m' d = m d.
Proof.
  intros p G s m fuel W T1 T2 K D B.
  assert (C : forall t z, conv_int t t z = z) by (intros; unfold conv_int; now rewrite rep_eqb_refl).
  destruct (W (DenOf 0)) as [[S1 S2] Ad], (W (IntVar 0)) as [_ Ak]. cbn in S1, S2, Ad, Ak. rewrite T1 in *. rewrite T2 in Ak.
  apply in_rep_iff in Ad, Ak. pose proof (rmin_nonpos s S1) as R1. pose proof (rmax_big s S1) as R2.
  exists (put (put m (DenOf 0) (2 * m (DenOf 0))) (IntVar 0) (m (IntVar 0) - 1)).
  split.
  - assert (X : pexec p G (S (S fuel)) m
      (PSeq (PUpdate Multiplies (DenOf 0) (PConst s 2)) (PUpdate Minus (IntVar 0) (PConst s 1))) =
      Some (Ok (put (put m (DenOf 0) (2 * m (DenOf 0))) (IntVar 0) (m (IntVar 0) - 1)))).
    { cbn [pexec pint_eval pint_ty bind cell_ty]. rewrite T1, T2, !common_self, !C.
      unfold int_arith, m_mul, m_sub, arith. rewrite S2.
      replace (in_rep s (m (DenOf 0) * 2)) with true by (symmetry; apply in_rep_iff; lia). cbn [bind]. rewrite !C.
      change (put m (DenOf 0) (m (DenOf 0) * 2) (IntVar 0)) with (m (IntVar 0)).
      replace (in_rep s (m (IntVar 0) - 1)) with true by (symmetry; apply in_rep_iff; lia).
      cbn [bind]. rewrite !C. replace (m (DenOf 0) * 2) with (2 * m (DenOf 0)) by lia. reflexivity. }
    assert (Y : pcond_eval p G m (PTest Gt (PRead (IntVar 0)) (PConst s 0)) = Ok true).
    { cbn [pcond_eval pint_eval pint_ty bind cell_ty]. rewrite T2, common_self, !C. cbn [int_cmp].
      now replace (0 <? m (IntVar 0)) with true by (symmetry; apply Z.ltb_lt; lia). }
    assert (V : forall f m b x, pexec p G (S f) m (PWhile b x) =
      match pcond_eval p G m b with
      | Ok true => match pexec p G f m x with Some (Ok m') => pexec p G f m' (PWhile b x) | r => r end
      | Ok false => Some (Ok m)
      | UB u => Some (UB u)
      end) by reflexivity.
    unfold halving at 1. rewrite V, Y, X. reflexivity.
  - split; [apply put_wf; [apply put_wf; auto|]; cbn [cell_ty]; rewrite ?T1, ?T2; apply in_rep_iff; lia|].
    split; [reflexivity|]. split; [reflexivity|]. split; [reflexivity|].
    intros d D1 D2. unfold put. destruct (cell_eqb_spec d (IntVar 0)); [contradiction|].
    destruct (cell_eqb_spec d (DenOf 0)); [contradiction|reflexivity].
Qed.

Theorem halving_correct : forall p G s k m, wf_mem G m -> frac_ty G 0 = s -> int_ty G 0 = s ->
  m (IntVar 0) = Z.of_nat k -> 0 < m (DenOf 0) -> m (DenOf 0) * 2 ^ Z.of_nat k <= rmax s ->
  exists m', pexec p G (k + 3) m (halving s) = Some (Ok m') /\ m' (NumOf 0) = m (NumOf 0) /\
    m' (DenOf 0) = m (DenOf 0) * 2 ^ Z.of_nat k /\ forall d, d <> DenOf 0 -> d <> IntVar 0 -> m' d = m d.
Proof.
  intros p G s k. induction k as [|k IH]; intros m W T1 T2 K D B.
  - exists m. split; [|repeat split; auto; cbn; lia]. unfold halving. cbn [plus pexec pcond_eval pint_eval pint_ty bind cell_ty].
    assert (C : forall t z, conv_int t t z = z) by (intros; unfold conv_int; now rewrite rep_eqb_refl).
    rewrite T2, common_self, !C, K. reflexivity.
  - assert (P : 0 < 2 ^ Z.of_nat k) by (apply Z.pow_pos_nonneg; lia).
    assert (X : 2 ^ Z.of_nat (S k) = 2 * 2 ^ Z.of_nat k) by (rewrite Nat2Z.inj_succ, Z.pow_succ_r; lia).
    rewrite X in *.
    destruct (halving_step p G s m (S k) W T1 T2) as [m1 [E [W1 [N1 [D1 [K1 F1]]]]]]; [lia|lia|nia|].
    destruct (IH m1 W1 T1 T2) as [m' [E' [N' [D' F']]]]; [lia|lia|rewrite D1; nia|].
    exists m'. replace (S k + 3)%nat with (S (S (S (S k)))) by lia. rewrite E.
    replace (S (S (S k))) with (k + 3)%nat by lia. split; auto. split; [congruence|]. split; [rewrite D', D1; lia|].
    intros d A1 A2. rewrite F' by auto. auto.
Qed.

(** ** Narrowing *)

Lemma conv_int_congr : forall s t z, wf_rep t -> in_rep s z = true ->
  in_rep t (conv_int s t z) = true /\ (2 ^ rbits t | conv_int s t z - z).
Proof.
  intros s t z W Z. unfold conv_int, cast. destruct (rep_eqb s t) eqn:E.
  - unfold rep_eqb in E. apply andb_prop in E as [E1 E2]. apply eqb_prop in E1. apply Z.eqb_eq in E2.
    split; [|rewrite Z.sub_diag; apply Z.divide_0_r].
    destruct s, t; cbn in *; subst; auto.
  - split; [now apply wrap_in|]. unfold wrap.
    assert (P : 2 ^ rbits t <> 0) by (apply Z.pow_nonzero; unfold wf_rep in W; lia).
    destruct (rsigned t).
    + pose proof (Z.div_mod (z + 2 ^ (rbits t - 1)) (2 ^ rbits t) P) as D.
      exists (- ((z + 2 ^ (rbits t - 1)) / 2 ^ rbits t)). lia.
    + pose proof (Z.div_mod z (2 ^ rbits t) P) as D. exists (- (z / 2 ^ rbits t)). lia.
Qed.

Theorem narrow_set : forall p G m c i m', wf_mem G m -> wf_pint i -> pexec p G 1 m (PSet c i) = Some (Ok m') ->
  in_rep (cell_ty G c) (m' c) = true /\ (2 ^ rbits (cell_ty G c) | m' c - pint_mean m i).
Proof.
  intros p G m c i m' W F H. cbn [pexec] in H. injection H as H. inv_bind H. inversion H; subst; clear H.
  destruct (pint_sim G m m i a W (fun _ => eq_refl) F E) as [-> A]. unfold put.
  destruct (cell_eqb_spec c c); [|congruence]. apply conv_int_congr; auto. apply W.
Qed.

Theorem narrow_update : forall p G m op c i m', wf_mem G m -> wf_pint i -> pexec p G 1 m (PUpdate op c i) = Some (Ok m') ->
  in_rep (cell_ty G c) (m' c) = true /\ (2 ^ rbits (cell_ty G c) | m' c - int_mean op (m c) (pint_mean m i)).
Proof.
  intros p G m op c i m' W F H. cbn [pexec] in H. injection H as H. inv_bind H. inversion H; subst; clear H.
  destruct (pint_sim G m m i a W (fun _ => eq_refl) F E) as [-> A]. destruct (W c) as [Sc Ac].
  pose proof (pint_ty_signed _ _ _ W F) as Si. destruct (common_signed _ _ Sc Si) as [St [Bc Bi]].
  destruct (conv_int_wide _ _ _ Sc St Bc Ac) as [Ec Cc], (conv_int_wide _ _ _ Si St Bi A) as [Ei Ci].
  rewrite Ec, Ei in E0. apply int_arith_ok in E0 as [-> Ar]; auto. unfold put.
  destruct (cell_eqb_spec c c); [|congruence]. apply conv_int_congr; [apply Sc|auto].
Qed.

Theorem narrow_raw : forall p G m x y m', wf_mem G m -> pexec p G 1 m (PCopyRaw x y) = Some (Ok m') ->
  in_rep (frac_ty G x) (m' (NumOf x)) = true /\ (2 ^ rbits (frac_ty G x) | m' (NumOf x) - m (NumOf y)) /\
  in_rep (frac_ty G x) (m' (DenOf x)) = true /\ (2 ^ rbits (frac_ty G x) | m' (DenOf x) - m (DenOf y)).
Proof.
  intros p G m x y m' W H. cbn [pexec] in H. inversion H; subst; clear H.
  unfold put_frac, put. cbn [cell_eqb]. rewrite Nat.eqb_refl.
  destruct (W (NumOf x)) as [[Wx _] _], (W (NumOf y)) as [_ An], (W (DenOf y)) as [_ Ad]. cbn [cell_ty] in *.
  destruct (conv_int_congr _ _ _ Wx An) as [N1 N2], (conv_int_congr _ _ _ Wx Ad) as [D1 D2].
  assert (E : conv_raw (frac_ty G y) (frac_ty G x) (get_frac m y) =
    mkRaw (conv_int (frac_ty G y) (frac_ty G x) (m (NumOf y))) (conv_int (frac_ty G y) (frac_ty G x) (m (DenOf y)))).
  { unfold conv_raw, conv_int. destruct (rep_eqb _ _); reflexivity. }
  rewrite E. cbn [num den]. auto.
Qed.
