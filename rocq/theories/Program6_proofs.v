(** Client programs over signed and unsigned representations. *)

From Coq Require Import ZArith QArith Qabs Bool Lia.
From Verif Require Import Machine Raw Ops Spec Fraction Fmath Program Program_spec Program3_spec Fraction_spec.
From Verif Require Import Machine_proofs Value_proofs Ops_proofs Total_proofs Cmp_proofs Order_proofs Algebra_proofs
  Qtrunc_proofs Fraction_proofs Fmath_proofs Program_proofs Program2_proofs Program4_proofs.
Open Scope Z_scope.

Lemma in_range : forall t z B, wf_rep t -> Z.abs z <= B -> B <= rmax t -> (rsigned t || (0 <=? z)) = true ->
  in_rep t z = true.
Proof.
  intros t z B W A M N. apply in_rep_iff. destruct (rsigned t) eqn:S.
  - pose proof (rmin_rmax_signed t S). lia.
  - cbn in N. pose proof (rmin_nonpos t W). lia.
Qed.

Lemma fits_parts : forall B t q, fits B t q = true ->
  small B q = true /\ (rsigned t || not_negative q) = true /\ B <= rmax t.
Proof.
  intros B t q F. unfold fits in F. apply andb_prop in F as [F F3]. apply andb_prop in F as [F1 F2].
  apply Z.leb_le in F3. auto.
Qed.

Lemma ifits_parts : forall B t i, ifits B t i = true ->
  exists z, i = Some z /\ Z.abs z <= B /\ (rsigned t || (0 <=? z)) = true /\ B <= rmax t.
Proof.
  intros B t [z|] F; [|discriminate]. exists z. cbn in F. apply andb_prop in F as [F F3].
  apply andb_prop in F as [F1 F2]. apply Z.leb_le in F1, F3. auto.
Qed.

Definition held (B : Z) (t : rep) (v : raw) (q : option Q) : Prop :=
  wf_raw t v /\ canonical v /\ same_value (value v) q.

Lemma held_of : forall B t v q, wf_rep t -> canonical v -> same_value (value v) q -> fits B t q = true ->
  wf_raw t v /\ raw_bounded B v /\ value v <> None /\ 0 < den v.
Proof.
  intros B t v q W C V F. apply fits_parts in F as [F1 [F2 F3]].
  destruct q as [x|]; [|discriminate]. destruct (canonical_parts _ _ C V) as [N D].
  cbn in F1. apply andb_prop in F1 as [F1 F4]. apply Z.leb_le in F1, F4.
  assert (Dp : 0 < den v) by lia.
  assert (Bd : raw_bounded B v) by (unfold raw_bounded; rewrite N, D; lia).
  split; [|split; [|split]]; auto.
  - destruct Bd as [B1 B2]. split; eapply in_range; eauto.
    + destruct (rsigned t); auto. cbn in F2 |- *. apply Z.leb_le. apply Qle_bool_iff in F2.
      rewrite <- (Qred_correct x) in F2. unfold Qle in F2. cbn in F2. rewrite N. lia.
    + apply orb_true_iff. right. apply Z.leb_le. lia.
  - intros E. now rewrite E in V.
Qed.

Lemma exact_value_side : forall t op x y q, exact op x y = Some q ->
  (rsigned t || not_negative (Some q)) = true -> value_side t op (Some x) (Some y).
Proof.
  intros t op x y q E N. split.
  - intros ->. cbn in E. destruct (Qeq_bool y 0) eqn:Y; [discriminate|]. intros H. apply Qeq_bool_iff in H. congruence.
  - intros -> S. rewrite S in N. cbn in E, N. inversion E; subst. apply Qle_bool_iff in N.
    setoid_replace y with (0 + y)%Q by ring. setoid_replace x with (x - y + y)%Q by ring.
    apply Qplus_le_l. exact N.
Qed.

Lemma fits_arith : forall o t op a ql qr B, wf_rep t -> output_canonical o = true -> roomy B t = true ->
  wf_args t a -> args_bounded B a -> same_value (left_value a) ql -> same_value (right_value a) qr ->
  fits B t (exact_opt op ql qr) = true ->
  exists r, p_arith (denote o) t op a = Ok r /\ held B t r (exact_opt op ql qr).
Proof.
  intros o t op a ql qr B W O Rm A Bd L R F. apply Z.leb_le in Rm.
  apply fits_parts in F as [F1 [F2 F3]].
  destruct ql as [x|]; [|discriminate]. destruct qr as [y|]; [|discriminate].
  cbn [exact_opt] in *. destruct (exact op x y) as [q|] eqn:E; [|discriminate].
  assert (Dl : left_value a <> None) by (intros H; rewrite H in L; exact L).
  assert (Dr : right_value a <> None) by (intros H; rewrite H in R; exact R).
  destruct (denote_total o t op a B) as [r [H [Wr [_ V]]]]; auto.
  - split; auto.
  - eapply value_side_proper; [symmetry; exact L|symmetry; exact R|]. eapply exact_value_side; eauto.
  - exists r. split; auto. split; auto. split; [eapply denote_canonical; eauto|].
    rewrite V, L, R. cbn [exact_opt]. now rewrite E.
Qed.

(** ** Negation *)

Lemma negate_0 : forall o t, wf_rep t -> p_negate (denote o) t (mkRaw 0 1) = Ok (mkRaw 0 1).
Proof.
  intros o t W.
  assert (I0 : in_rep t 0 = true) by (apply in_rep_iff; pose proof (rmin_nonpos t W); pose proof (rmax_big t W); lia).
  assert (I1 : in_rep t 1 = true) by (apply in_rep_iff; pose proof (rmin_nonpos t W); pose proof (rmax_big t W); lia).
  assert (Rd : forall m, reduce t (mkRaw 0 1) m = Ok (mkRaw 0 1)).
  { intros m. pose proof (rmax_big t W). destruct (reduce_total t (mkRaw 0 1) m W) as [r E]; cbn; try lia; [split; auto|].
    rewrite E. f_equal. apply reduce_spec in E as [_ [R _]]; [|auto|split; auto].
    destruct R as [[D _]|[_ [g [G [Hn [Hd [Hg [P1 P2]]]]]]]]; [discriminate|].
    cbn in Hn, Hd. destruct r as [n d]. cbn in *. assert (n = 0) by nia. subst n.
    assert (0 < g) by (destruct m; [assert (0 < d) by auto; nia|auto]). assert (d = 1) by nia. congruence. }
  induction o as [| |o IH m|o IH m]; cbn [denote].
  1,2: cbn; unfold safe_negate, fast_negate, m_neg; cbn; rewrite (arith_0 t W); reflexivity.
  - cbn [p_negate reduced_input]. unfold ri_negate. rewrite Rd. exact IH.
  - cbn [p_negate reduced_output]. unfold ro_negate. rewrite IH. apply Rd.
Qed.

Lemma fits_negate : forall o t v q B, wf_rep t -> output_canonical o = true -> held B t v q ->
  fits B t q = true -> fits B t (opp_opt q) = true ->
  exists r, p_negate (denote o) t v = Ok r /\ held B t r (opp_opt q).
Proof.
  intros o t v q B W O [A [C V]] F F'. destruct (held_of _ _ _ _ W C V F) as [_ [Bd [N D]]].
  apply fits_parts in F as [F1 [F2 F3]]. apply fits_parts in F' as [_ [F2' _]].
  destruct (rsigned t) eqn:S.
  - destruct (negate_bounded o t v B W S A Bd F3) as [r [H [Wr _]]]. exists r. split; auto.
    split; auto. split; [now apply (denote_negate_canonical o t v)|]. pose proof (denote_negate o t v r W S A H) as Vr.
    etransitivity; [exact Vr|]. now apply opp_opt_proper.
  - destruct q as [x|]; [|discriminate]. cbn in F2, F2'. apply Qle_bool_iff in F2, F2'.
    assert (X : (x == 0)%Q) by (apply Qle_antisym; auto; rewrite <- (Qopp_involutive x); change 0%Q with (- 0)%Q; now apply Qopp_le_compat).
    assert (E : v = mkRaw 0 1).
    { apply canonical_unique; auto; [right; cbn; split; [lia|reflexivity]|]. rewrite V. cbn. rewrite X. reflexivity. }
    subst v. exists (mkRaw 0 1). split; [now apply negate_0|]. split; auto. split; auto. cbn. rewrite X. reflexivity.
Qed.

(** ** Integers *)

Lemma itype_typed : forall ty s i, typed_store ty s -> typed_i i -> wf_rep (itype ty i).
Proof. intros ty s [t z|x|x|x] W I; cbn in *; try tauto; apply W. Qed.

Lemma ftype_typed : forall ty s e, typed_store ty s -> typed_f e -> wf_rep (ftype ty e).
Proof.
  intros ty s e W. induction e; cbn; intros F; try tauto; try apply W.
  - eapply itype_typed; eauto.
  - apply common_wf; tauto.
  - apply common_wf; tauto.
  - apply common_wf; tauto.
Qed.

Lemma ieval_fits : forall B ty s q i, typed_store ty s -> represents s q -> typed_i i ->
  ifits B (itype ty i) (imeaning q i) = true ->
  exists z, ieval ty s i = Ok z /\ imeaning q i = Some z /\ in_rep (itype ty i) z = true /\ Z.abs z <= B.
Proof.
  intros B ty s q i W R I F. apply ifits_parts in F as [z [M [A [N Bm]]]].
  exists z. rewrite M. enough (E : ieval ty s i = Ok z).
  { repeat split; auto. eapply in_range; eauto. eapply itype_typed; eauto. }
  destruct i as [t k|x|x|x]; cbn in M |- *.
  - congruence.
  - f_equal. destruct (W x) as [_ [_ C]]. specialize (R x). destruct (q x) as [v|].
    + apply canonical_parts in R; auto. destruct R. congruence.
    + destruct (value (s x)) eqn:V; [contradiction|]. rewrite (canonical_undefined _ C V). cbn. congruence.
  - f_equal. destruct (W x) as [_ [_ C]]. specialize (R x). destruct (q x) as [v|].
    + apply canonical_parts in R; auto. destruct R. congruence.
    + destruct (value (s x)) eqn:V; [contradiction|]. rewrite (canonical_undefined _ C V). cbn. congruence.
  - destruct (W x) as [Wx [Ax C]]. specialize (R x). destruct (q x) as [v|]; [|discriminate].
    assert (D : den (s x) <> 0) by (intros D; apply value_none_iff in D; now rewrite D in R).
    assert (T : exists k, f_trunc (ty x) (s x) = Ok k).
    { apply f_trunc_defined; auto. split; auto. destruct C as [[_ E]|[E _]]; intros [_ [_ E']]; lia. }
    destruct T as [k K]. rewrite K. f_equal. apply f_trunc_ok in K as [_ ->]; auto.
    rewrite value_defined in R by auto. cbn in R. inversion M. rewrite <- R. now rewrite Qtrunc_div by auto.
Qed.

Lemma ifits_conv : forall B s c i z, wf_rep c -> ifits B c i = true -> i = Some z ->
  conv_int s c z = z /\ in_rep c z = true.
Proof.
  intros B s c i z W F E. apply ifits_parts in F as [k [K [A [N M]]]].
  assert (k = z) by congruence. subst k.
  assert (J : in_rep c z = true) by (eapply in_range; eauto). split; auto. now apply conv_int_id.
Qed.

Lemma held_conv : forall B s c v q, wf_rep c -> held B s v q -> fits B c q = true ->
  conv_raw s c v = v /\ held B c v q /\ raw_bounded B v /\ 0 < den v.
Proof.
  intros B s c v q W [A [C V]] F. destruct (held_of _ _ _ _ W C V F) as [A' [Bd [_ D]]].
  split; [now apply conv_raw_id|]. split; [split; auto|]. auto.
Qed.

Ltac split_fits H := repeat (let K := fresh "K" in apply andb_prop in H as [H K]).

Lemma ffits_fits : forall B ty s e, ffits B ty s e = true -> fits B (ftype ty e) (fmeaning s e) = true.
Proof. intros B ty s [] H; cbn [ffits] in H; now apply andb_prop in H as [H _]. Qed.

Lemma ieval_value : forall z, same_value (Some (inject_Z z)) (int_value (Some z)).
Proof. intros z. reflexivity. Qed.

(** ** Expressions *)

Lemma feval_fits : forall o B ty s q e, output_canonical o = true -> typed_store ty s -> represents s q ->
  typed_f e -> ffits B ty q e = true ->
  exists v, feval (denote o) ty s e = Ok v /\ held B (ftype ty e) v (fmeaning q e).
Proof.
  intros o B ty s q e O W R.
  induction e as [x|t r|i|e IH|e IH|e IH|e IH|op l IHl r IHr|op l IHl i|op i r IHr]; intros F S;
    pose proof (ftype_typed _ _ _ W F) as T;
    cbn [ffits] in S; apply andb_prop in S as [S0 S]; cbn [ftype fmeaning] in *; cbn [feval]; cbn [typed_f] in F.
  - eexists; split; [reflexivity|]. destruct (W x) as [_ [A C]]. split; auto.
  - eexists; split; [reflexivity|]. split; [tauto|]. split; [tauto|reflexivity].
  - destruct (ieval_fits _ _ _ _ _ W R F S) as [z [-> [M [J Z]]]]. cbn [bind].
    eexists; split; [reflexivity|]. rewrite M.
    split; [split; auto; pose proof (rmax_big _ T); apply (in_range _ _ 1); auto; [cbn; lia|lia|apply orb_true_iff; right; reflexivity]|].
    split; [right; cbn; split; [lia|apply Z.gcd_1_r]|]. now apply int_low.
  - destruct (IH F S) as [v [-> H]]. cbn. eauto.
  - destruct (IH F S) as [v [-> H]]. cbn [bind]. apply fits_negate; auto. now apply ffits_fits.
  - destruct (IH F S) as [v [-> H]]. cbn [bind]. pose proof H as [A [C V]].
    pose proof (ffits_fits _ _ _ _ S) as S1. destruct (held_of _ _ _ _ T C V S1) as [_ [Bd [Nn D]]].
    apply fits_parts in S1 as [Q1 [Q2 Q3]]. destruct (fmeaning q e) as [x|] eqn:Qe; [|discriminate].
    destruct (canonical_parts _ _ C V) as [Pn Pd].
    assert (Sg : (0 <= x)%Q <-> 0 <= num v).
    { rewrite <- (Qred_correct x). unfold Qle. cbn [Qnum Qden]. rewrite <- Pn. cbn. lia. }
    unfold f_abs, is_non_negative. destruct (Z_lt_le_dec (num v) 0) as [Neg|Pos].
    + destruct (rsigned (ftype ty e)) eqn:Sn.
      2:{ cbn in Q2. apply Qle_bool_iff in Q2. exfalso; apply Sg in Q2; lia. }
      destruct (negate_bounded o (ftype ty e) v B T Sn A Bd Q3) as [r [Hn [Wr _]]]. exists r. split.
      { replace ((num v >=? 0) && (den v >? 0) || (num v <=? 0) && (den v <? 0)) with false; auto.
        symmetry. apply orb_false_iff. split; apply andb_false_iff; [left|right]; rewrite ?Z.geb_leb; lia. }
      split; auto. split; [now apply (denote_negate_canonical o (ftype ty e) v)|].
      rewrite (denote_negate o _ v r T Sn A Hn). rewrite V. cbn.
      rewrite Qabs_neg; [reflexivity|]. apply Qlt_le_weak, Qnot_le_lt. intros X. apply Sg in X. lia.
    + exists v. split.
      { replace ((num v >=? 0) && (den v >? 0) || (num v <=? 0) && (den v <? 0)) with true; auto.
        symmetry. apply orb_true_iff. left. apply andb_true_iff. rewrite Z.geb_leb, Z.gtb_ltb. lia. }
      split; auto. split; auto. rewrite V. cbn. rewrite Qabs_pos; [reflexivity|now apply Sg].
  - destruct (IH F S) as [v [-> H]]. cbn [bind]. pose proof H as [A [C V]].
    pose proof (ffits_fits _ _ _ _ S) as S1. destruct (held_of _ _ _ _ T C V S1) as [_ [[B1 B2] [Nn D]]].
    apply fits_parts in S1 as [Q1 [Q2 Q3]].
    destruct (reduce_total _ v normalize_signs_mode T A) as [r E]; try lia. exists r. split; auto.
    apply reduce_spec in E as [Wr [Rd _]]; auto. split; auto. split; [eapply reduces_canonical; eauto|].
    rewrite <- V. eapply reduces_same_value; eauto.
  - split_fits S. destruct F as [Fl Fr].
    destruct (IHl Fl K2) as [x [-> Hx]], (IHr Fr K1) as [y [-> Hy]]. cbn [bind].
    destruct (held_conv _ _ _ _ _ T Hx K0) as [Ex [[Ax [Cx Vx]] [Bx _]]].
    destruct (held_conv _ _ _ _ _ T Hy K) as [Ey [[Ay [Cy Vy]] [By _]]].
    unfold f_arith, common_args. rewrite Ex, Ey. apply fits_arith; auto; split; auto.
  - split_fits S. destruct F as [Fl Fi].
    destruct (IHl Fl K2) as [x [-> Hx]], (ieval_fits _ _ _ _ _ W R Fi K1) as [z [-> [M [J Z]]]]. cbn [bind].
    destruct (held_conv _ _ _ _ _ T Hx K0) as [Ex [[Ax [Cx Vx]] [Bx _]]].
    destruct (ifits_conv _ (itype ty i) _ _ _ T K M) as [Ez Iz].
    unfold f_arith, common_args. rewrite Ex, Ez. rewrite M in S0 |- *. apply fits_arith; auto; try (split; auto).
  - split_fits S. destruct F as [Fi Fr].
    destruct (ieval_fits _ _ _ _ _ W R Fi K2) as [z [-> [M [J Z]]]], (IHr Fr K1) as [x [-> Hx]]. cbn [bind].
    destruct (held_conv _ _ _ _ _ T Hx K) as [Ex [[Ax [Cx Vx]] [Bx _]]].
    destruct (ifits_conv _ (itype ty i) _ _ _ T K0 M) as [Ez Iz].
    unfold f_arith, common_args. rewrite Ex, Ez. rewrite M in S0 |- *. apply fits_arith; auto; try (split; auto).
Qed.

(** ** Conditions *)

Lemma fits_cmp : forall o t op a ql qr B, wf_rep t -> roomy B t = true -> wf_args t a -> args_bounded B a ->
  positive_dens a -> same_value (left_value a) ql -> same_value (right_value a) qr -> B <= rmax t ->
  p_cmp (denote o) t op a = Ok (exact_cmp_opt op ql qr).
Proof.
  intros o t op a ql qr B W Rm A Bd P L R M. apply Z.leb_le in Rm.
  rewrite (denote_cmp_total o t op a B W A Bd M).
  - now rewrite L, R.
  - pose proof (rmax_big t W). assert (0 <= B) by (destruct a as [x y|x z|z y]; cbn in Bd; unfold raw_bounded in Bd; lia). nia.
  - right. now apply order_domain_positive.
Qed.

Lemma beval_fits : forall o B ty s q b, output_canonical o = true -> typed_store ty s -> represents s q ->
  typed_b b -> bfits B ty q b = true -> beval (denote o) ty s b = Ok (bmeaning q b).
Proof.
  intros o B ty s q b O W R.
  induction b as [op l r|op l i|op i r|b IH|a IHa b IHb|a IHa b IHb]; intros F S;
    cbn [bfits] in S; cbn [beval bmeaning]; cbn [typed_b] in F.
  - split_fits S. destruct F as [Fl Fr].
    assert (T : wf_rep (common_rep (ftype ty l) (ftype ty r))) by (apply common_wf; left; eapply ftype_typed; eauto).
    destruct (feval_fits o B ty s q l O W R Fl K2) as [x [-> Hx]], (feval_fits o B ty s q r O W R Fr K1) as [y [-> Hy]]. cbn [bind].
    destruct (held_conv _ _ _ _ _ T Hx K0) as [Ex [[Ax [Cx Vx]] [Bx Dx]]].
    destruct (held_conv _ _ _ _ _ T Hy K) as [Ey [[Ay [Cy Vy]] [By Dy]]].
    unfold f_cmp, common_args. rewrite Ex, Ey. apply fits_cmp with (B := B); auto; try (split; auto). now apply fits_parts in K.
  - split_fits S. destruct F as [Fl Fi].
    assert (T : wf_rep (common_rep (ftype ty l) (itype ty i))) by (apply common_wf; left; eapply ftype_typed; eauto).
    destruct (feval_fits o B ty s q l O W R Fl K2) as [x [-> Hx]], (ieval_fits _ _ _ _ _ W R Fi K1) as [z [-> [M [J Z]]]]. cbn [bind].
    destruct (held_conv _ _ _ _ _ T Hx K0) as [Ex [[Ax [Cx Vx]] [Bx Dx]]].
    destruct (ifits_conv _ (itype ty i) _ _ _ T K M) as [Ez Iz].
    unfold f_cmp, common_args. rewrite Ex, Ez, M. apply fits_cmp with (B := B); auto; try (split; auto); try reflexivity.
    now apply fits_parts in K0.
  - split_fits S. destruct F as [Fi Fr].
    assert (T : wf_rep (common_rep (itype ty i) (ftype ty r))) by (apply common_wf; right; eapply ftype_typed; eauto).
    destruct (ieval_fits _ _ _ _ _ W R Fi K2) as [z [-> [M [J Z]]]], (feval_fits o B ty s q r O W R Fr K1) as [x [-> Hx]]. cbn [bind].
    destruct (held_conv _ _ _ _ _ T Hx K) as [Ex [[Ax [Cx Vx]] [Bx Dx]]].
    destruct (ifits_conv _ (itype ty i) _ _ _ T K0 M) as [Ez Iz].
    unfold f_cmp, common_args. rewrite Ex, Ez, M. apply fits_cmp with (B := B); auto; try (split; auto); try reflexivity.
    now apply fits_parts in K.
  - rewrite IH by auto. reflexivity.
  - split_fits S. destruct F as [Fa Fb]. rewrite IHa by auto. cbn [bind]. destruct (bmeaning q a); auto.
  - split_fits S. destruct F as [Fa Fb]. rewrite IHa by auto. cbn [bind]. destruct (bmeaning q a); auto.
Qed.

(** ** Statements *)

Lemma write_typed : forall B ty s q x v qv, typed_store ty s -> represents s q -> held B (ty x) v qv ->
  typed_store ty (write s x v) /\ represents (write s x v) (qwrite q x qv).
Proof.
  intros B ty s q x v qv W R [A [C V]]. split; intros y; unfold write, qwrite;
    destruct (Nat.eqb y x) eqn:E; auto.
  apply Nat.eqb_eq in E. subst. split; [apply W|auto].
Qed.

Theorem exec_fits : forall o B ty fuel s q c q', output_canonical o = true -> typed_store ty s -> represents s q ->
  typed c -> run_fits B ty fuel q c = Some q' ->
  exists s', exec (denote o) ty fuel s c = Some (Ok s') /\ represents s' q' /\ typed_store ty s'.
Proof.
  intros o B ty fuel. induction fuel as [|fuel IH]; intros s q c q' O W R F H; [discriminate|].
  destruct c as [|x e|op x e|op x i|a b|b x y|b x]; cbn [exec run_fits] in H |- *; cbn [typed] in F.
  - inversion H; subst. eauto.
  - destruct (_ && _) eqn:S; [|discriminate]. inversion H; subst. split_fits S.
    destruct (feval_fits o B ty s q e O W R F S) as [v [-> Hv]]. cbn [bind].
    destruct (held_conv _ _ _ _ _ (proj1 (W x)) Hv K) as [Ev [Hv' _]]. unfold f_convert. rewrite Ev.
    destruct (write_typed _ _ _ _ _ _ _ W R Hv'). eauto.
  - destruct (_ && _) eqn:S; [|discriminate]. inversion H; subst. split_fits S.
    destruct (feval_fits o B ty s q e O W R F K1) as [v [-> Hv]]. cbn [bind f_assign].
    destruct (W x) as [Tx [Ax Cx]].
    destruct (held_conv _ _ _ _ _ Tx Hv K0) as [Ev [[Av [Cv Vv]] [Bv _]]]. rewrite Ev, f_arith_self.
    destruct (held_of _ _ _ _ Tx Cx (R x) K2) as [_ [Bx _]].
    destruct (fits_arith o (ty x) op (RR (s x) v) (q x) (fmeaning q e) B) as [r [-> Hr]]; auto; try (split; auto); try apply R.
    cbn [bind]. destruct (write_typed _ _ _ _ _ _ _ W R Hr). eauto.
  - destruct (_ && _) eqn:S; [|discriminate]. inversion H; subst. split_fits S.
    destruct (ieval_fits _ _ _ _ _ W R F K1) as [z [-> [M [J Z]]]]. cbn [bind f_assign].
    destruct (W x) as [Tx [Ax Cx]].
    destruct (ifits_conv _ (itype ty i) _ _ _ Tx K0 M) as [Ez Iz]. rewrite Ez, f_arith_self.
    destruct (held_of _ _ _ _ Tx Cx (R x) K2) as [_ [Bx _]]. rewrite M in K |- *.
    destruct (fits_arith o (ty x) op (RI (s x) z) (q x) (int_value (Some z)) B) as [r [-> Hr]]; auto; try (split; auto); try apply R; try reflexivity.
    cbn [bind]. destruct (write_typed _ _ _ _ _ _ _ W R Hr). eauto.
  - destruct F as [Fa Fb]. destruct (run_fits B ty fuel q a) as [q1|] eqn:E; [|discriminate].
    destruct (IH s q a q1 O W R Fa E) as [s1 [-> [R1 W1]]]. eauto.
  - destruct (bfits B ty q b) eqn:S; [|discriminate]. destruct F as [Fb [Fx Fy]].
    rewrite (beval_fits o B ty s q b O W R Fb S). eapply IH; eauto. destruct (bmeaning q b); auto.
  - destruct (bfits B ty q b) eqn:S; [|discriminate]. pose proof F as [Fb Fx].
    rewrite (beval_fits o B ty s q b O W R Fb S). destruct (bmeaning q b); [|inversion H; subst; eauto].
    destruct (run_fits B ty fuel q x) as [q1|] eqn:E; [|discriminate].
    destruct (IH s q x q1 O W R Fx E) as [s1 [-> [R1 W1]]]. eauto.
Qed.

Lemma run_fits_run : forall B ty fuel s c s', run_fits B ty fuel s c = Some s' -> run fuel s c = Some s'.
Proof.
  intros B ty fuel. induction fuel as [|fuel IH]; intros s c s' H; [discriminate|].
  destruct c as [|x e|op x e|op x i|a b|b x y|b x]; cbn [run_fits run] in *; auto.
  - destruct (_ && _); [auto|discriminate].
  - destruct (_ && _); [auto|discriminate].
  - destruct (_ && _); [auto|discriminate].
  - destruct (run_fits B ty fuel s a) as [s1|] eqn:E; [|discriminate]. rewrite (IH _ _ _ E). auto.
  - destruct (bfits B ty s b); [auto|discriminate].
  - destruct (bfits B ty s b); [|discriminate]. destruct (bmeaning s b); auto.
    destruct (run_fits B ty fuel s x) as [s1|] eqn:E; [|discriminate]. rewrite (IH _ _ _ E). auto.
Qed.
