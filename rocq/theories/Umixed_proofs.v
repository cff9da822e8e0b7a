(** Proofs about mixed numbers of unsigned types: the signed type one bit wider computes
    the same. *)

From Coq Require Import ZArith QArith List Bool Lia Lqa.
From Verif Require Import Machine Raw Ops Spec Fraction Fraction_spec Fmath Mixed Mixed_spec Unsigned_spec Mixed3_spec MixDef_spec Umixed_spec.
From Verif Require Import Machine_proofs Value_proofs Ops_proofs Total_proofs Qtrunc_proofs Fraction_proofs Fmath_proofs Mixed_proofs Mixed2_proofs Mixed3_proofs MixDef_proofs Unsigned_proofs.
Open Scope Z_scope.

Section Wider.
Variables (o : ops) (t s : rep).
Hypothesis H : widens t s.

Let Wt : wf_rep t. Proof. apply H. Qed.
Let Ut : rsigned t = false. Proof. apply H. Qed.
Let Ss : rsigned s = true. Proof. apply H. Qed.
Let Ws : wf_rep s. Proof. exact (proj2 (proj2 (widens_range t s H))). Qed.

Lemma u_arith : forall op a r, wf_args t a -> no_borrow op a -> p_arith (denote o) s op a = Ok r ->
  p_arith (denote o) t op a = Ok r /\ wf_raw t r.
Proof.
  intros op a r WA NB E. destruct (unsigned_arith o t s op a r H WA NB E) as [A [N D]]. split; auto.
  exact (arith_wf o t op a r Wt WA A).
Qed.

Lemma u_improper : forall f b, wf_raw t f -> is_improper s f = Ok b -> is_improper t f = Ok b.
Proof.
  intros f b W E. destruct (wf_nonneg t f Ut W) as [N D].
  assert (A : forall z, 0 <= z -> mu_abs s z = Ok z /\ mu_abs t z = Ok z).
  { intros z P. unfold mu_abs. destruct (Z.geb_spec z 0); [auto|lia]. }
  unfold is_improper, is_proper in *. destruct (A (num f) N) as [A1 A2], (A (den f) D) as [A3 A4].
  rewrite A1, A3 in E. rewrite A2, A4. exact E.
Qed.

Lemma u_trunc : forall f k, wf_raw t f -> f_trunc s f = Ok k ->
  f_trunc t f = Ok k /\ 0 <= k /\ exists q, value f = Some q /\ (inject_Z k <= q)%Q.
Proof.
  intros f k W E. destruct (wf_nonneg t f Ut W) as [N D]. unfold f_trunc in *.
  pose proof E as E'. eapply w_div in E as [E K]; eauto. split; auto. split; auto.
  unfold m_div in E'. destruct (Z.eqb_spec (den f) 0); [discriminate|]. apply arith_signed in E' as [-> _]; auto.
  rewrite (value_defined f) by auto. eexists. split; [reflexivity|]. rewrite <- (Qtrunc_div (num f) (den f)) by auto.
  apply Qtrunc_pos. change 0%Q with (inject_Z 0). apply Qle_int_div; nia.
Qed.

Lemma u_fits : forall z, in_rep t z = true -> in_rep s z = true.
Proof. intros z I. now apply (widens_in' t s z H). Qed.

Lemma u_trunc_in : forall f k, wf_raw t f -> f_trunc s f = Ok k -> in_rep s k = true /\ in_rep t k = true.
Proof.
  intros f k W E. destruct (u_trunc f k W E) as [_ [K _]].
  assert (I : in_rep s k = true) by exact (trunc_in s f k Ws E).
  split; auto. eapply widens_in; eauto.
Qed.

Lemma u_minus_int : forall f k r, wf_raw t f -> in_rep t k = true -> 
  (exists q, value f = Some q /\ (inject_Z k <= q)%Q) ->
  p_arith (denote o) s Minus (RI f k) = Ok r -> p_arith (denote o) t Minus (RI f k) = Ok r /\ wf_raw t r.
Proof.
  intros f k r W I [q [V L]] E. apply u_arith; auto; [now split|].
  intros _. exists q, (inject_Z k). cbn [left_value right_value]. auto.
Qed.

Lemma u_signs : forall u m, 0 <= whole m -> nonneg (fractional m) -> fix_signs (denote o) u u m = Ok m.
Proof.
  intros u [w f] N [A B]. unfold fix_signs. cbn [whole fractional] in *.
  assert (F : is_negative f = false).
  { unfold is_negative. rewrite !Z.gtb_ltb. destruct (Z.ltb_spec (num f) 0), (Z.ltb_spec (den f) 0); try lia; now rewrite ?andb_false_r. }
  rewrite F, andb_false_r. destruct (Z.ltb_spec w 0); [lia|]. reflexivity.
Qed.

Lemma u_make : forall w f m, in_rep t w = true -> wf_raw t f ->
  mixed_make (denote o) s s w f = Ok m -> mixed_make (denote o) t t w f = Ok m /\ wf_mixed t t m.
Proof.
  intros w f m Iw Wf E. destruct (widens_in' t s w H Iw) as [Iws Nw].
  unfold mixed_make, mixed_fix in *. inv_bind E. rename a into m1. unfold fix_improper in E0. cbn [whole fractional] in E0.
  inv_bind E0. apply u_improper in E1; auto.
  assert (G : fix_improper (denote o) t t {| whole := w; fractional := f |} = Ok m1 /\ wf_mixed t t m1).
  { unfold fix_improper. cbn [whole fractional]. rewrite E1. cbn [bind]. destruct a.
    - inv_bind E0. destruct (u_trunc f a Wf E2) as [T1 [K TV]]. destruct (u_trunc_in f a Wf E2) as [Is It].
      rewrite T1. cbn [bind].
      unfold cast in *. rewrite wrap_id in E3 by auto. rewrite (wrap_id t a) by auto.
      assert (N0 : 0 <= a0). { unfold m_add in E3. apply arith_signed in E3 as [-> _]; auto. lia. }
      assert (I0 : in_rep t a0 = true).
      { unfold m_add in E3. apply arith_signed in E3 as [-> I]; auto. eapply widens_in; eauto. }
      destruct (w_add t s w a a0 H Nw K E3) as [-> _]. cbn [bind].
      rewrite f_assign_fits in E4 by (try split; auto). rewrite f_assign_fits by (try split; auto). cbn [operand_args] in *.
      apply u_minus_int in E4 as [-> R]; auto. cbn [bind]. injection E0 as <-. split; auto. split; [exact I0|exact R].
    - inversion E0; subst. split; auto. now split. }
  destruct G as [-> [M1 M2]]. cbn [bind]. destruct (widens_in' t s _ H M1) as [_ P].
  assert (NN := wf_nonneg t _ Ut M2). rewrite u_signs in E by auto. rewrite u_signs by auto. inversion E; subst. split; auto. now split.
Qed.

Lemma u_of_fraction : forall f m, wf_raw t f ->
  mixed_of_fraction (denote o) s s s f = Ok m -> mixed_of_fraction (denote o) t t t f = Ok m /\ wf_mixed t t m.
Proof.
  intros f m Wf E. unfold mixed_of_fraction in *. inv_bind E.
  destruct (u_trunc f a Wf E0) as [T1 [K TV]]. destruct (u_trunc_in f a Wf E0) as [Is It]. rewrite T1. cbn [bind].
  unfold cast in *. rewrite !(wrap_id s a) in * by auto. rewrite !(wrap_id t a) by auto.
  rewrite f_arith_self in *. apply u_minus_int in E1 as [-> R]; auto. cbn [bind].
  assert (Rs := widens_wf_raw t s a0 H R).
  unfold f_convert in *. rewrite conv_raw_id in E by auto. injection E as <-.
  rewrite conv_raw_id by auto. split; auto. now split.
Qed.

Lemma u_plus : forall l r m, wf_mixed t t l -> wf_mixed t t r ->
  mixed_plus (denote o) s s s s l r = Ok m -> mixed_plus (denote o) t t t t l r = Ok m /\ wf_mixed t t m.
Proof.
  intros l r m [L1 L2] [R1 R2] E. unfold mixed_plus in *. rewrite !common_self in *.
  destruct (widens_in' t s _ H L1) as [L1s L1p], (widens_in' t s _ H R1) as [R1s R1p].
  unfold cast in *. rewrite !(wrap_id s) in E by auto. rewrite !(wrap_id t) by auto.
  unfold f_convert in *. rewrite !conv_raw_id in E by eauto using widens_wf_raw. rewrite !conv_raw_id by auto.
  rewrite f_arith_self in *. inv_bind E.
  assert (I0 : in_rep t a = true).
  { unfold m_add in E0. apply arith_signed in E0 as [-> I]; auto. eapply widens_in; eauto. lia. }
  destruct (w_add t s _ _ a H L1p R1p E0) as [-> _]. cbn [bind].
  apply u_arith in E1 as [-> R]; [|now split|discriminate]. cbn [bind]. now apply u_make.
Qed.

Lemma u_plus_whole : forall l z m, wf_mixed t t l -> in_rep t z = true ->
  mixed_plus_whole (denote o) s s s l z = Ok m -> mixed_plus_whole (denote o) t t t l z = Ok m /\ wf_mixed t t m.
Proof.
  intros l z m [L1 L2] Iz E. unfold mixed_plus_whole in *. rewrite !common_self in *.
  destruct (widens_in' t s _ H L1) as [L1s L1p], (widens_in' t s _ H Iz) as [Izs Izp].
  unfold cast in *. rewrite !(wrap_id s) in E by auto. rewrite !(wrap_id t) by auto.
  inv_bind E.
  assert (I0 : in_rep t a = true).
  { unfold m_add in E0. apply arith_signed in E0 as [-> I]; auto. eapply widens_in; eauto. lia. }
  destruct (w_add t s _ _ a H L1p Izp E0) as [-> _]. cbn [bind]. now apply u_make.
Qed.

Lemma typed_type : forall u e, typed u e -> mtype e = (u, u).
Proof.
  intros u e. induction e; cbn [typed mtype]; intros T; try (now apply IHe); try (destruct T as [T1 T2]; subst; auto).
  - destruct T2 as [-> _]. auto.
  - rewrite (IHe1 T1), (IHe2 T2). cbn. now rewrite common_self.
  - destruct T2 as [-> _]. rewrite (IHe T1). cbn. now rewrite common_self.
  - destruct T2 as [-> _]. rewrite (IHe T1). cbn. now rewrite common_self.
  - destruct T2 as [-> _]. rewrite (IHe T1). cbn. now rewrite common_self.
  - destruct T2 as [-> _]. rewrite (IHe T1). cbn. now rewrite common_self.
Qed.

Lemma retyped_typed : forall e, typed t e -> typed s (retyped s e).
Proof.
  induction e; cbn [typed retyped]; intros T; auto.
  - destruct T as [_ [_ [A B]]]. repeat split; auto using u_fits; apply (widens_wf_raw t s f H B).
  - destruct T as [_ B]. split; auto. apply (widens_wf_raw t s f H B).
  - destruct T. auto.
  - destruct T as [A [_ B]]. repeat split; auto; apply (widens_wf_raw t s f H B).
  - destruct T as [A [_ B]]. repeat split; auto; apply (widens_wf_raw t s f H B).
  - destruct T as [A [_ B]]. repeat split; auto using u_fits.
  - destruct T as [A [_ B]]. repeat split; auto using u_fits.
Qed.

Theorem u_meval : forall e m, typed t e -> no_negation e ->
  meval (denote o) (retyped s e) = Ok m -> meval (denote o) e = Ok m /\ wf_mixed t t m.
Proof.
  assert (TS : forall e, typed t e -> mtype (retyped s e) = (s, s)) by (intros; apply typed_type; now apply retyped_typed).
  induction e; intros m T NN E; cbn [typed no_negation retyped meval] in *.
  - destruct T as [-> [-> [A B]]]. now apply u_make.
  - destruct T as [-> B]. now apply u_of_fraction.
  - inv_bind E. destruct (IHe _ T NN eq_refl) as [-> M]. inversion E; subst m. cbn [bind]. auto.
  - contradiction.
  - destruct T as [T1 T2], NN as [N1 N2]. rewrite (TS e1 T1), (TS e2 T2) in E. rewrite (typed_type t e1 T1), (typed_type t e2 T2).
    cbn [fst snd] in *. inv_bind E. destruct (IHe1 _ T1 N1 eq_refl) as [-> M1]. destruct (IHe2 _ T2 N2 eq_refl) as [-> M2]. cbn [bind]. now apply u_plus.
  - destruct T as [T [-> W]]. rewrite (TS e T) in E. rewrite (typed_type t e T). cbn [fst snd] in *. inv_bind E.
    destruct (IHe _ T NN eq_refl) as [-> M1]. cbn [bind]. unfold mixed_plus_fraction in *. inv_bind E.
    apply u_of_fraction in E1 as [-> M2]; auto. cbn [bind]. now apply u_plus.
  - destruct T as [T [-> W]]. rewrite (TS e T) in E. rewrite (typed_type t e T). cbn [fst snd] in *. inv_bind E.
    destruct (IHe _ T NN eq_refl) as [-> M1]. cbn [bind]. unfold fraction_plus_mixed, mixed_plus_fraction in *. inv_bind E.
    apply u_of_fraction in E1 as [-> M2]; auto. cbn [bind]. now apply u_plus.
  - destruct T as [T [-> W]]. rewrite (TS e T) in E. rewrite (typed_type t e T). cbn [fst snd] in *. inv_bind E.
    destruct (IHe _ T NN eq_refl) as [-> M1]. cbn [bind]. now apply u_plus_whole.
  - destruct T as [T [-> W]]. rewrite (TS e T) in E. rewrite (typed_type t e T). cbn [fst snd] in *. inv_bind E.
    destruct (IHe _ T NN eq_refl) as [-> M1]. cbn [bind]. unfold whole_plus_mixed in *. now apply u_plus_whole.
Qed.

Lemma u_as_fraction : forall m r, wf_mixed t t m -> mixed_as_fraction (denote o) s s m = Ok r ->
  mixed_as_fraction (denote o) t t m = Ok r /\ wf_raw t r.
Proof.
  intros m r [M1 M2] E. unfold mixed_as_fraction in *. rewrite !common_self in *.
  destruct (widens_in' t s _ H M1) as [M1s M1p].
  unfold cast in *. rewrite !(wrap_id s) in E by auto. rewrite !(wrap_id t) by auto.
  unfold f_convert in *. rewrite conv_raw_id in E by eauto using widens_wf_raw. rewrite conv_raw_id by auto.
  rewrite f_arith_self in *. apply u_arith; auto; [now split|discriminate].
Qed.

Lemma retyped_denotes : forall e, mdenotes (retyped s e) = mdenotes e.
Proof. induction e; cbn [retyped mdenotes]; congruence. Qed.

Lemma retyped_signed : signed_rep s.
Proof. split; auto. Qed.

Theorem u_exact : forall e m, typed t e -> no_negation e -> meval (denote o) (retyped s e) = Ok m ->
  meval (denote o) e = Ok m /\ wf_mixed t t m /\ normal_form m /\ same_value (mixed_value m) (mdenotes e).
Proof.
  intros e m T N E. destruct (u_meval e m T N E) as [A B].
  destruct (typed_wf s (retyped s e) retyped_signed (retyped_typed e T)) as [WE _].
  destruct (meval_exact o (retyped s e) m WE E) as [_ [X Y]]. rewrite retyped_denotes in Y. auto.
Qed.

Lemma retyped_small : forall B W e, typed t e -> small_mexpr B W e -> small_mexpr B W (retyped s e).
Proof.
  intros B W. assert (R : rmax s = rmax t) by apply (widens_range t s H).
  assert (TS : forall e, typed t e -> mtype (retyped s e) = (s, s)) by (intros; apply typed_type; now apply retyped_typed).
  induction e; intros T S; pose proof T as T0; pose proof (small_top _ _ _ S) as [Q [R1 R2]]; destruct S as [_ [_ [_ S]]]; 
    rewrite (typed_type t _ T0) in R1, R2; cbn [fst snd] in R1, R2; fold (small_mexpr B W) in *; cbn [typed] in T;
    pose proof (TS _ T0) as TT; cbn [retyped] in TT; cbn [retyped small_mexpr];
    (split; [rewrite <- (retyped_denotes) in Q; exact Q|]); rewrite TT; cbn [fst snd]; rewrite R; (split; [exact R1|]); (split; [exact R2|]); fold (small_mexpr B W).
  - exact S.
  - exact S.
  - auto.
  - auto.
  - destruct T, S. auto.
  - destruct T as [T [-> _]], S as [S1 [S2 S3]]. repeat split; auto; try apply S2. 
  - destruct T as [T [-> _]], S as [S1 [S2 S3]]. repeat split; auto; try apply S2.
  - destruct T as [T [-> _]], S as [S1 S2]. split; auto.
  - destruct T as [T [-> _]], S as [S1 S2]. split; auto.
Qed.
End Wider.

Theorem u_small : forall o t B W e, unsigned_rep t -> output_canonical o = true -> 1 <= B <= W -> typed t e -> no_negation e -> small_mexpr B W e ->
  exists m, meval (denote o) e = Ok m /\ wf_mixed t t m /\ normal_form m /\ same_value (mixed_value m) (mdenotes e).
Proof.
  intros o t B W e U OC HB T N S. pose proof (to_wider t U) as H. set (s := mkRep true (rbits t + 1)) in *.
  destruct (typed_wf s (retyped s e) (retyped_signed t s H) (retyped_typed t s H e T)) as [WE _].
  destruct (meval_small o B W (retyped s e) OC HB WE (retyped_small t s H B W e T S)) as [m [E _]].
  exists m. now apply (u_exact o t s H).
Qed.

(** Nothing below zero exists. *)
Lemma value_nonneg : forall t f q, rsigned t = false -> wf_raw t f -> value f = Some q -> (0 <= q)%Q.
Proof.
  intros t f q U W V. destruct (wf_nonneg t f U W) as [A B]. unfold value in V. destruct (Z.eqb_spec (den f) 0); [discriminate|].
  injection V as <-. change 0%Q with (inject_Z 0). apply Qle_int_div; nia.
Qed.

Theorem u_value_nonneg : forall tw tf m q, rsigned tw = false -> rsigned tf = false -> wf_mixed tw tf m -> mixed_value m = Some q -> (0 <= q)%Q.
Proof.
  intros tw tf m q Uw Uf [A B] V. unfold mixed_value, sum_value in V.
  destruct (value (fractional m)) as [p|] eqn:P; [|discriminate]. injection V as <-.
  pose proof (value_nonneg tf _ p Uf B P). apply in_rep_nonneg in A; auto.
  assert (0 <= inject_Z (whole m))%Q by (change 0%Q with (inject_Z 0); now rewrite <- Zle_Qle). lra.
Qed.
