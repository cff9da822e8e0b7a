(** Expressions over mixed numbers with small values are defined. *)

From Coq Require Import ZArith QArith Qabs List Bool Lia Lqa.
From Verif Require Import Machine Raw Ops Spec Fraction Fraction_spec Fmath Fmath_spec Mixed Mixed_spec Defined_spec Mixed3_spec.
From Verif Require Import Machine_proofs Value_proofs Ops_proofs Total_proofs Algebra_proofs Qtrunc_proofs Fraction_proofs
  Fmath_proofs Limits_proofs Literals_proofs Mixed_proofs Mixed2_proofs Defined_proofs Defined2_proofs.
Import ListNotations.
Open Scope Z_scope.

Lemma canon_low : forall x q, canonical x -> value x = Some q -> num x = low_num q /\ den x = low_den q.
Proof.
  intros x q [[_ D]|[P G]] V.
  - rewrite value_undefined in V by auto. discriminate.
  - rewrite value_defined in V by lia. injection V as <-.
    destruct (low_of (inject_Z (num x) / inject_Z (den x)) (num x) (den x)) as [A B]; auto. reflexivity.
Qed.

Lemma canon_bounded : forall x q B k, canonical x -> value x = Some q -> low_den q <= B -> 1 <= k ->
  (- inject_Z k <= q <= inject_Z k)%Q -> raw_bounded (k * B) x.
Proof.
  intros x q B k C V L K [Q1 Q2]. destruct (canon_low x q C V) as [EN ED]. pose proof (low_den_pos q) as P.
  rewrite <- (low_value q) in Q1, Q2. rewrite Qdiv_le_int in Q2 by lia.
  rewrite <- inject_Z_opp in Q1. rewrite Qle_int_div in Q1 by lia.
  unfold raw_bounded. rewrite EN, ED. set (n := low_num q) in *. set (d := low_den q) in *. clearbody n d.
  assert (- (k * d) <= n <= k * d) by nia. nia.
Qed.

Lemma low_add_int : forall a k, low_den (inject_Z k + a) = low_den a.
Proof.
  intros a k. destruct (low_sub_int a (- k)) as [_ E]. rewrite <- E. apply low_proper.
  rewrite inject_Z_opp. ring.
Qed.

Lemma Qtrunc_le : forall q W, (Qabs q <= inject_Z W)%Q -> Z.abs (Qtrunc q) <= W.
Proof.
  intros q W H. apply Qabs_Qle_condition in H as [A B].
  destruct (Qlt_le_dec q 0) as [N|P].
  - destruct (Qtrunc_neg q) as [X Y]; [lra|].
    assert (C : (inject_Z (Qtrunc q) <= inject_Z 0)%Q).
    { rewrite <- Zle_Qle. destruct (Z_le_gt_dec (Qtrunc q) 0); auto. exfalso.
      assert (inject_Z 1 <= inject_Z (Qtrunc q))%Q by (rewrite <- Zle_Qle; lia). change (inject_Z 1) with 1%Q in H. lra. }
    rewrite <- Zle_Qle in C. assert (D : (inject_Z (- W) <= inject_Z (Qtrunc q))%Q) by (rewrite inject_Z_opp; lra).
    rewrite <- Zle_Qle in D. lia.
  - destruct (Qtrunc_pos q P) as [X Y].
    assert (C : (inject_Z (-1) < inject_Z (Qtrunc q))%Q) by (change (inject_Z (-1)) with (-(1))%Q; lra).
    rewrite <- Zlt_Qlt in C. assert (D : (inject_Z (Qtrunc q) <= inject_Z W)%Q) by lra.
    rewrite <- Zle_Qle in D. lia.
Qed.

Lemma make_small : forall o tw tf w f q C B, signed_rep tw -> signed_rep tf -> output_canonical o = true ->
  in_rep tw w = true -> wf_raw tf f -> value f = Some q ->
  1 <= B -> B <= C -> raw_bounded C f -> Z.abs (den f) <= B -> low_den q <= B -> 2 * C * C <= rmax tf ->
  Z.abs w + Z.abs (Qtrunc q) + 1 <= rmax tw -> C <= rmax tw ->
  exists m, mixed_make (denote o) tw tf w f = Ok m /\ raw_bounded B (fractional m).
Proof.
  intros o tw tf w f q C B SW SF OC Iw If V HB HC Bf Df LD G Lw Ct.
  pose proof SF as [Wf Sf]. pose proof SW as [Ww Sw].
  assert (Dn : den f <> 0) by (intros E; rewrite value_undefined in V by auto; discriminate).
  assert (VD := value_defined f Dn). rewrite V in VD. injection VD as VD.
  destruct (f_trunc_total tf f C SF Bf ltac:(nia) Dn) as [T1 T2].
  assert (TQ : Qtrunc q = Z.quot (num f) (den f)) by (rewrite VD; now apply Qtrunc_div).
  assert (Step : exists m1 q1, fix_improper (denote o) tw tf (mkMixed w f) = Ok m1 /\ wf_mixed tw tf m1 /\
    raw_bounded B (fractional m1) /\ value (fractional m1) = Some q1 /\ (-(1) < q1 < 1)%Q /\ low_den q1 <= B /\
    Z.abs (whole m1) <= Z.abs w + Z.abs (Qtrunc q)).
  { unfold fix_improper. cbn [whole fractional]. rewrite (is_improper_total tf f C SF Bf) by nia. cbn [bind].
    destruct (Z.ltb_spec (Z.abs (num f)) (Z.abs (den f))) as [LT|GE]; cbn [negb].
    - eexists _, _. split; [reflexivity|]. cbn [whole fractional]. rewrite V.
      split; [now split|]. split; [split; lia|]. split; [reflexivity|]. split; [|split; [auto|lia]].
      rewrite VD. now apply proper_value.
    - rewrite T1. cbn [bind]. rewrite <- TQ in *. set (k := Qtrunc q) in *.
      assert (Ik : in_rep tf k = true) by (apply in_rep_signed_abs; auto; nia).
      assert (Ikw : in_rep tw k = true) by (apply in_rep_signed_abs; auto; lia).
      unfold cast. rewrite wrap_id by auto. unfold m_add.
      assert (Is : in_rep tw (w + k) = true) by (apply in_rep_signed_abs; auto; lia).
      rewrite arith_in by auto. cbn [bind].
      rewrite f_assign_fits; auto; [|split; auto]. cbn [operand_args].
      assert (WA : wf_args tf (RI f k)) by now split.
      destruct (total_step o tf Minus (RI f k) C q (inject_Z k) (q - inject_Z k)%Q) as [r [R1 [R2 [R3 R4]]]]; auto.
      + cbn [left_value]. rewrite V. apply same_refl.
      + apply same_refl.
      + split; auto.
      + rewrite R1. cbn [bind]. destruct (value r) as [q1|] eqn:Q; [|contradiction]. cbn [same_value] in R4.
        assert (CR := denote_canonical o tf Minus _ r Wf WA OC R1).
        pose proof (trunc_remainder q) as TR. fold k in TR.
        assert (LQ : low_den q1 <= B).
        { destruct (low_proper _ _ R4) as [_ ->]. destruct (low_sub_int q k) as [_ ->]. auto. }
        assert (BR : raw_bounded (1 * B) r).
        { apply (canon_bounded r q1 B 1); auto; [lia|]. change (inject_Z 1) with 1%Q. rewrite R4. lra. }
        rewrite Z.mul_1_l in BR.
        exists (mkMixed (w + k) r), q1. cbn [whole fractional]. split; [reflexivity|]. split; [now split|].
        split; auto. split; auto. split; [rewrite R4; exact TR|]. split; [auto|lia]. }
  destruct Step as [m1 [q1 [E [[M1 M2] [Bm [Vm [Rm [Lq Lm]]]]]]]].
  unfold mixed_make, mixed_fix. rewrite E. cbn [bind]. unfold fix_signs.
  destruct (one_in tf SF) as [I1 I2].
  assert (Plus1 : forall z, z = 1 \/ z = -1 -> (-(1) <= inject_Z z + q1 <= 1)%Q ->
    exists r, p_arith (denote o) tf Plus (IR z (fractional m1)) = Ok r /\ raw_bounded B r).
  { intros z Hz RZ.
    assert (WA : wf_args tf (IR z (fractional m1))) by (split; auto; destruct Hz; subst; auto).
    destruct (total_step o tf Plus (IR z (fractional m1)) B (inject_Z z) q1 (inject_Z z + q1)%Q)
      as [r [R1 [R2 [R3 R4]]]]; auto.
    - apply same_refl.
    - cbn [right_value]. rewrite Vm. apply same_refl.
    - split; auto. destruct Hz; subst; cbn; lia.
    - nia.
    - exists r. split; auto. destruct (value r) as [q2|] eqn:Q; [|contradiction]. cbn [same_value] in R4.
      assert (CR := denote_canonical o tf Plus _ r Wf WA OC R1).
      replace B with (1 * B) by ring. apply (canon_bounded r q2 B 1); auto; [|lia|change (inject_Z 1) with 1%Q; rewrite R4; lra].
      destruct (low_proper _ _ R4) as [_ ->]. now rewrite low_add_int. }
  destruct (is_negative (fractional m1)) eqn:NG; [|destruct (is_positive (fractional m1)) eqn:PS].
  - apply (is_negative_value _ _ Vm) in NG.
    assert (NP : is_positive (fractional m1) = false).
    { apply not_true_is_false. intros P. apply (is_positive_value _ _ Vm) in P. lra. }
    rewrite NP, !andb_false_r, andb_true_r. destruct (whole m1 >? 0).
    + unfold m_sub. rewrite arith_in; auto; [|apply in_rep_signed_abs; auto; lia]. cbn [bind].
      rewrite f_arith_self. destruct (Plus1 1) as [r [-> B1]]; auto; [change (inject_Z 1) with 1%Q; lra|]. cbn [bind]. eauto.
    + eauto.
  - apply (is_positive_value _ _ Vm) in PS. rewrite andb_false_r, andb_true_r. destruct (whole m1 <? 0).
    + unfold m_add, m_neg. rewrite !arith_in; auto; [|apply in_rep_signed_abs; auto; lia]. cbn [bind].
      rewrite f_arith_self. change (-(1)) with (-1). destruct (Plus1 (-1)) as [r [E' B1]]; auto; [change (inject_Z (-1)) with (-(1))%Q; lra|].
      rewrite E'. cbn [bind]. eauto.
    + eauto.
  - rewrite !andb_false_r. eauto.
Qed.

Lemma Qtrunc_two : forall q, (-(2) < q < 2)%Q -> Z.abs (Qtrunc q) <= 1.
Proof.
  intros q [A B]. destruct (Qlt_le_dec q 0) as [N|P].
  - destruct (Qtrunc_neg q) as [X Y]; [lra|]. pose proof (proj2 (Qtrunc_sign q) ltac:(lra)).
    assert (C : (inject_Z (-2) < inject_Z (Qtrunc q))%Q) by (change (inject_Z (-2)) with (-(2))%Q; lra).
    rewrite <- Zlt_Qlt in C. lia.
  - destruct (Qtrunc_pos q P) as [X Y]. pose proof (proj1 (Qtrunc_sign q) P).
    assert (C : (inject_Z (Qtrunc q) < inject_Z 2)%Q) by (change (inject_Z 2) with 2%Q; lra).
    rewrite <- Zlt_Qlt in C. lia.
Qed.

Lemma plus_small : forall o tw1 tf1 tw2 tf2 l r q B,
  signed_rep tw1 -> signed_rep tf1 -> signed_rep tw2 -> signed_rep tf2 -> output_canonical o = true ->
  wf_mixed tw1 tf1 l -> wf_mixed tw2 tf2 r -> normal_form l -> normal_form r ->
  raw_bounded B (fractional l) -> raw_bounded B (fractional r) -> 1 <= B ->
  same_value (opt_plus (mixed_value l) (mixed_value r)) (Some q) -> low_den q <= B ->
  8 * B * B <= rmax (common_rep tf1 tf2) -> 2 * B <= rmax (common_rep tw1 tw2) ->
  Z.abs (whole l) + Z.abs (whole r) + 2 <= rmax (common_rep tw1 tw2) ->
  exists m, mixed_plus (denote o) tw1 tf1 tw2 tf2 l r = Ok m /\ raw_bounded B (fractional m).
Proof.
  intros o tw1 tf1 tw2 tf2 l r q B SW1 SF1 SW2 SF2 OC [Ml Mlf] [Mr Mrf] NL NR BL BR HB SV LD G1 G2 G3.
  destruct (common_signed tw1 tw2 SW1 SW2) as [SW [A1 A2]].
  destruct (common_signed tf1 tf2 SF1 SF2) as [SF [B1 B2]].
  unfold mixed_plus.
  destruct (cast_wide tw1 (common_rep tw1 tw2) (whole l)) as [C1 C1']; auto.
  destruct (cast_wide tw2 (common_rep tw1 tw2) (whole r)) as [C2 C2']; auto.
  destruct (conv_wide tf1 (common_rep tf1 tf2) (fractional l)) as [D1 D1']; auto.
  destruct (conv_wide tf2 (common_rep tf1 tf2) (fractional r)) as [D2 D2']; auto.
  rewrite C1, C2, D1, D2, f_arith_self.
  set (tw := common_rep tw1 tw2) in *. set (tf := common_rep tf1 tf2) in *. clearbody tw tf.
  pose proof SW as [Ww Sw]. pose proof SF as [Wf Sf].
  destruct NL as [ql [VL [RL _]]], NR as [qr [VR [RR' _]]].
  assert (Is : in_rep tw (whole l + whole r) = true) by (apply in_rep_signed_abs; auto; lia).
  unfold m_add. rewrite arith_in by auto. cbn [bind].
  assert (WA : wf_args tf (RR (fractional l) (fractional r))) by now split.
  destruct (total_step o tf Plus (RR (fractional l) (fractional r)) B ql qr (ql + qr)%Q) as [f [R1 [R2 [R3 R4]]]]; auto.
  - cbn [left_value]. rewrite VL. apply same_refl.
  - cbn [right_value]. rewrite VR. apply same_refl.
  - now split.
  - nia.
  - rewrite R1. cbn [bind]. destruct (value f) as [qf|] eqn:VF; [|contradiction]. cbn [same_value] in R4.
    assert (CF := denote_canonical o tf Plus _ f Wf WA OC R1).
    unfold mixed_value, sum_value, opt_plus in SV. rewrite VL, VR in SV. cbn [same_value] in SV.
    assert (LF : low_den qf <= B).
    { rewrite <- (low_add_int qf (whole l + whole r)). 
      assert (E : (inject_Z (whole l + whole r) + qf == q)%Q) by (rewrite <- SV, R4, inject_Z_plus; ring).
      destruct (low_proper _ _ E) as [_ ->]. auto. }
    assert (RQ : (-(2) < qf < 2)%Q) by (rewrite R4; lra).
    pose proof (Qtrunc_two qf RQ) as TQ.
    destruct (canon_low f qf CF VF) as [_ DF]. pose proof (low_den_pos qf) as PF.
    apply (make_small o tw tf (whole l + whole r) f qf (2 * B) B); auto; try lia.
    + apply (canon_bounded f qf B 2); auto; [lia|]. change (inject_Z 2) with 2%Q. lra.
Qed.

Lemma of_fraction_small : forall o t f q B, signed_rep t -> output_canonical o = true -> wf_raw t f -> value f = Some q ->
  1 <= B -> raw_bounded B f -> 2 * B * B <= rmax t -> low_den q <= B ->
  exists m, mixed_of_fraction (denote o) t t t f = Ok m /\ raw_bounded B (fractional m).
Proof.
  intros o t f q B ST OC WF V HB Bf G LD. pose proof ST as [W S].
  destruct (mixed_of_fraction_total o t t t f B ST ST ST WF) as [m H]; auto; [congruence|nia|].
  exists m. split; auto. unfold mixed_of_fraction in H. inv_bind H.
  destruct (f_trunc_total t f B ST Bf ltac:(nia)) as [T1 T2].
  { intros E'. rewrite value_undefined in V by auto. discriminate. }
  rewrite E in T1. injection T1 as ->.
  assert (Ik : in_rep t (Z.quot (num f) (den f)) = true) by (apply in_rep_signed_abs; auto; nia).
  unfold cast in *. rewrite !wrap_id in * by (rewrite ?wrap_id; auto).
  rewrite f_arith_self in E0. injection H as <-. cbn [fractional].
  assert (WA : wf_args t (RI f (Z.quot (num f) (den f)))) by now split.
  assert (CR := denote_canonical o t Minus _ a0 W WA OC E0).
  destruct (minus_int_exact o t f _ a0 W S WF Ik E0 q V) as [W0 [q0 [V0 Q0]]].
  destruct (conv_wide t t a0) as [-> _]; auto; [lia|].
  replace B with (1 * B) by ring. apply (canon_bounded a0 q0 B 1); auto; [|lia|].
  - destruct (low_proper _ _ Q0) as [_ ->]. destruct (low_sub_int q (Z.quot (num f) (den f))) as [_ ->]. auto.
  - assert (Dn : den f <> 0) by (intros E'; rewrite value_undefined in V by auto; discriminate).
    assert (VD := value_defined f Dn). rewrite V in VD. injection VD as VD.
    pose proof (trunc_remainder q) as TR. change (inject_Z 1) with 1%Q.
    assert (TQ : Qtrunc q = Z.quot (num f) (den f)) by (rewrite VD; now apply Qtrunc_div).
    rewrite TQ in TR. rewrite Q0. lra.
Qed.

Lemma low_den_le : forall f q B, value f = Some q -> raw_bounded B f -> low_den q <= Z.abs (den f).
Proof.
  intros f q B V _. assert (Dn : den f <> 0) by (intros E; rewrite value_undefined in V by auto; discriminate).
  assert (VD := value_defined f Dn). rewrite V in VD. injection VD as VD.
  assert (E : (inject_Z (low_num q) / inject_Z (low_den q) == inject_Z (num f) / inject_Z (den f))%Q) by (rewrite low_value, VD; reflexivity).
  pose proof (low_den_pos q) as P. apply (proj1 (qdiv_eq (low_num q) (low_den q) (num f) (den f) ltac:(lia) Dn)) in E.
  assert (DV : (low_den q | den f)).
  { apply (Z.gauss _ (low_num q)); [|rewrite Z.gcd_comm; apply low_canonical]. exists (num f). lia. }
  apply Z.divide_abs_r in DV. apply Z.divide_pos_le in DV; lia.
Qed.

Lemma negate_small : forall o tw tf m q B, signed_rep tw -> signed_rep tf -> output_canonical o = true ->
  wf_mixed tw tf m -> normal_form m -> raw_bounded B (fractional m) -> 1 <= B ->
  value (fractional m) = Some q -> 2 * B * B <= rmax tf -> B <= rmax tw -> Z.abs (whole m) + 1 <= rmax tw ->
  exists r, mixed_negate (denote o) tw tf m = Ok r /\ raw_bounded B (fractional r).
Proof.
  intros o tw tf m q B SW SF OC [Mw Mf] [q' [V' [RG _]]] BM HB V G1 G2 G3. rewrite V in V'. injection V' as <-.
  pose proof SW as [Ww Sw]. pose proof SF as [Wf Sf].
  unfold mixed_negate, m_neg. assert (I1 : in_rep tw (- whole m) = true) by (apply in_rep_signed_abs; auto; lia).
  rewrite arith_in by auto. cbn [bind]. unfold f_negate.
  destruct (negate_total o tf (fractional m) Wf Sf Mf) as [r [R1 [R2 _]]]; [destruct BM; split; nia|].
  rewrite R1. cbn [bind].
  pose proof (denote_negate o tf _ _ Wf Sf Mf R1) as NV. rewrite V in NV. cbn [opp_opt] in NV.
  destruct (value r) as [p|] eqn:VR; [|contradiction]. cbn [same_value] in NV.
  assert (CR := denote_negate_canonical o tf _ r Wf Mf OC R1).
  pose proof (low_den_le _ q B V BM) as LQ.
  assert (LP : low_den p <= B).
  { destruct (low_proper _ _ NV) as [_ ->]. 
    assert (E : low_den (- q) = low_den q).
    { apply (low_of (- q) (- low_num q) (low_den q)); [apply low_den_pos|rewrite Z.gcd_opp_l; apply low_canonical|].
      rewrite inject_Z_opp. rewrite <- (low_value q) at 1. unfold Qdiv. ring. }
    rewrite E. destruct BM. lia. }
  destruct (canon_low r p CR VR) as [_ DR]. pose proof (low_den_pos p) as PP.
  assert (BR : raw_bounded (1 * B) r).
  { apply (canon_bounded r p B 1); auto; [lia|]. change (inject_Z 1) with 1%Q. rewrite NV. lra. }
  rewrite Z.mul_1_l in BR.
  assert (T0 : Qtrunc p = 0).
  { apply Qtrunc_unique. change (inject_Z 0) with 0%Q. destruct (Qlt_le_dec p 0); [right|left]; rewrite NV in *; lra. }
  apply (make_small o tw tf (- whole m) r p B B); auto; rewrite ?T0; cbn [Z.abs]; try lia.
Qed.

Lemma plus_whole_small : forall o tw tf t l z B, signed_rep tw -> signed_rep tf -> signed_rep t -> output_canonical o = true ->
  wf_mixed tw tf l -> normal_form l -> raw_bounded B (fractional l) -> 1 <= B -> in_rep t z = true ->
  2 * B * B <= rmax tf -> B <= rmax (common_rep tw t) -> Z.abs (whole l) + Z.abs z + 1 <= rmax (common_rep tw t) ->
  exists r, mixed_plus_whole (denote o) tw tf t l z = Ok r /\ raw_bounded B (fractional r).
Proof.
  intros o tw tf t l z B SW SF ST OC [Ml Mlf] [q [V [RG _]]] BM HB Iz G1 G2 G3.
  destruct (common_signed tw t SW ST) as [SC [A1 A2]].
  unfold mixed_plus_whole.
  destruct (cast_wide tw (common_rep tw t) (whole l)) as [C1 C1']; auto.
  destruct (cast_wide t (common_rep tw t) z) as [C2 C2']; auto.
  rewrite C1, C2. set (tc := common_rep tw t) in *. clearbody tc. pose proof SC as [Wc Sc].
  assert (Is : in_rep tc (whole l + z) = true) by (apply in_rep_signed_abs; auto; lia).
  unfold m_add. rewrite arith_in by auto. cbn [bind].
  pose proof (low_den_le _ q B V BM) as LQ. pose proof BM as [_ BD].
  assert (T0 : Qtrunc q = 0).
  { apply Qtrunc_unique. change (inject_Z 0) with 0%Q. destruct (Qlt_le_dec q 0); [right|left]; lra. }
  apply (make_small o tc tf (whole l + z) (fractional l) q B B); auto; rewrite ?T0; cbn [Z.abs]; try lia.
Qed.

Lemma trunc_bounded : forall f q B, value f = Some q -> raw_bounded B f -> Z.abs (Qtrunc q) <= B.
Proof.
  intros f q B V [BN BD].
  assert (Dn : den f <> 0) by (intros E; rewrite value_undefined in V by auto; discriminate).
  assert (VD := value_defined f Dn). rewrite V in VD. injection VD as VD.
  rewrite VD, Qtrunc_div by auto. pose proof (abs_quot_le (num f) (den f) Dn). lia.
Qed.

Lemma small_top : forall B W e, small_mexpr B W e ->
  (exists q, mdenotes e = Some q /\ (Qabs q <= inject_Z W)%Q /\ low_den q <= B) /\
  8 * B * B <= rmax (snd (mtype e)) /\ 2 * W + 2 <= rmax (fst (mtype e)).
Proof. intros B W [] [H1 [H2 [H3 _]]]; auto. Qed.

Lemma whole_small : forall o e m B W, wf_mexpr e -> small_mexpr B W e -> meval (denote o) e = Ok m -> Z.abs (whole m) <= W.
Proof.
  intros o e m B W WE S H. destruct (meval_exact o e m WE H) as [_ [N X]].
  destruct (small_top _ _ _ S) as [[q [D [Q _]]] _]. rewrite D in X.
  rewrite (normal_whole m q N X). now apply Qtrunc_le.
Qed.

Lemma opt_some : forall x y q, opt_plus x y = Some q -> exists a b, x = Some a /\ y = Some b.
Proof. intros [a|] [b|] q H; try discriminate. eauto. Qed.

Theorem meval_small : forall o B W e, output_canonical o = true -> 1 <= B <= W -> wf_mexpr e -> small_mexpr B W e ->
  exists m, meval (denote o) e = Ok m /\ raw_bounded B (fractional m).
Proof.
  intros o B W e OC HB. induction e; intros WE S; pose proof (small_top _ _ _ S) as [[q [Dq [Qq Lq]]] [R1 R2]];
    destruct S as [_ [_ [_ S]]]; cbn [wf_mexpr meval mtype fst snd mdenotes] in *; fold (small_mexpr B W) in *.
  - destruct WE as [SW [SF [L [Iw If]]]]. destruct S as [Bf Bw].
    destruct (value f) as [qf|] eqn:V; [|discriminate].
    pose proof (low_den_le f qf B V Bf). pose proof (trunc_bounded f qf B V Bf). pose proof Bf as [_ Bd].
    apply (make_small o tw tf w f qf B B); auto; try lia; nia.
  - destruct WE as [ST WF]. pose proof (low_den_le f q B Dq S). pose proof S as [_ Bd].
    apply (of_fraction_small o t f q B); auto; try lia; nia.
  - destruct (IHe WE S) as [m [-> Bm]]. cbn [bind]. eexists. split; [reflexivity|]. exact Bm.
  - destruct (IHe WE S) as [m [Hm Bm]]. rewrite Hm. cbn [bind].
    destruct (wf_mtype _ WE) as [T1 [T2 T3]]. destruct (meval_exact o e m WE Hm) as [M [N X]].
    pose proof (whole_small o e m B W WE S Hm). pose proof N as [p [V _]].
    apply (negate_small o _ _ m p B); auto; try lia; nia.
  - destruct WE as [W1 W2]. destruct S as [S1 S2]. destruct (IHe1 W1 S1) as [x [Hx Bx]]. destruct (IHe2 W2 S2) as [y [Hy By]].
    rewrite Hx, Hy. cbn [bind].
    destruct (meval_exact o e1 x W1 Hx) as [M1 [N1 X1]]. destruct (meval_exact o e2 y W2 Hy) as [M2 [N2 X2]].
    destruct (wf_mtype _ W1) as [A1 [A2 A3]]. destruct (wf_mtype _ W2) as [B1 [B2 B3]].
    pose proof (whole_small o e1 x B W W1 S1 Hx). pose proof (whole_small o e2 y B W W2 S2 Hy).
    apply (plus_small o _ _ _ _ x y q B); auto; try lia.
    rewrite <- Dq. now apply opt_plus_same.
  - destruct WE as [W1 [W2 W3]]. destruct S as [S1 [S2 S3]]. destruct (IHe W1 S1) as [x [Hx Bx]]. rewrite Hx. cbn [bind].
    destruct (meval_exact o e x W1 Hx) as [M1 [N1 X1]]. destruct (wf_mtype _ W1) as [A1 [A2 A3]].
    pose proof (whole_small o e x B W W1 S1 Hx).
    destruct (opt_some _ _ _ Dq) as [a [b [Da Db]]].
    pose proof (low_den_le f b B Db S2). pose proof (trunc_bounded f b B Db S2). pose proof S2 as [_ Bd].
    destruct (of_fraction_small o t f b B) as [y [Hy By]]; auto; try lia; try nia.
    unfold mixed_plus_fraction. rewrite Hy. cbn [bind].
    assert (T : trunc_fits t f) by exact (of_fraction_trunc_fits _ t t t f y W2 W2 W3 (Z.le_refl _) Hy).
    destruct (mixed_of_fraction_spec o t t t f y W2 W2 W2 W3 (Z.le_refl _) T Hy) as [Y1 [Y2 [q' [Y3 [Y4 Y5]]]]].
    rewrite Db in Y3. injection Y3 as <-.
    apply (plus_small o _ _ _ _ x y q B); auto; try lia.
    rewrite <- Dq. rewrite Db. now apply opt_plus_same.
  - destruct WE as [W1 [W2 W3]]. destruct S as [S1 [S2 S3]]. destruct (IHe W1 S1) as [x [Hx Bx]]. rewrite Hx. cbn [bind].
    destruct (meval_exact o e x W1 Hx) as [M1 [N1 X1]]. destruct (wf_mtype _ W1) as [A1 [A2 A3]].
    pose proof (whole_small o e x B W W1 S1 Hx).
    destruct (opt_some _ _ _ Dq) as [b [a [Db Da]]].
    pose proof (low_den_le f b B Db S2). pose proof (trunc_bounded f b B Db S2). pose proof S2 as [_ Bd].
    destruct (of_fraction_small o t f b B) as [y [Hy By]]; auto; try lia; try nia.
    unfold fraction_plus_mixed, mixed_plus_fraction. rewrite Hy. cbn [bind].
    assert (T : trunc_fits t f) by exact (of_fraction_trunc_fits _ t t t f y W2 W2 W3 (Z.le_refl _) Hy).
    destruct (mixed_of_fraction_spec o t t t f y W2 W2 W2 W3 (Z.le_refl _) T Hy) as [Y1 [Y2 [q' [Y3 [Y4 Y5]]]]].
    rewrite Db in Y3. injection Y3 as <-.
    apply (plus_small o _ _ _ _ x y q B); auto; try lia.
    rewrite <- Dq. rewrite Db. eapply same_trans; [apply opt_plus_comm|]. now apply opt_plus_same.
  - destruct WE as [W1 [W2 W3]]. destruct S as [S1 S2]. destruct (IHe W1 S1) as [x [Hx Bx]]. rewrite Hx. cbn [bind].
    destruct (meval_exact o e x W1 Hx) as [M1 [N1 X1]]. destruct (wf_mtype _ W1) as [A1 [A2 A3]].
    pose proof (whole_small o e x B W W1 S1 Hx).
    apply (plus_whole_small o _ _ _ x z B); auto; try lia; nia.
  - destruct WE as [W1 [W2 W3]]. destruct S as [S1 S2]. destruct (IHe W1 S1) as [x [Hx Bx]]. rewrite Hx. cbn [bind].
    destruct (meval_exact o e x W1 Hx) as [M1 [N1 X1]]. destruct (wf_mtype _ W1) as [A1 [A2 A3]].
    pose proof (whole_small o e x B W W1 S1 Hx).
    apply (plus_whole_small o _ _ _ x z B); auto; try lia; nia.
Qed.

(** Evaluates the conditions of a closed expression. *)
Ltac small_closed :=
  cbn [small_mexpr]; repeat match goal with
  | |- _ /\ _ => split
  | |- exists q, _ => eexists; split; [vm_compute; reflexivity|split; vm_compute; discriminate]
  | |- _ => vm_compute; first [reflexivity | discriminate | now repeat split]
  end.
