(** Proofs of the statements in Props_Narrow.v. *)

From Coq Require Import ZArith QArith Qabs Bool Lia List.
From Verif Require Import Machine Raw Ops Spec Fraction Fraction_spec Fmath Fmath_spec Tight_spec Mixed_spec Narrow Narrow_spec.
From Verif Require Import Machine_proofs Value_proofs Ops_proofs Cmp_proofs Order_proofs Fraction_proofs Fmath_proofs Fmath2_proofs Narrow_proofs.
From Verif Require Import Raw_claims Tight_claims.
Import ListNotations.
Open Scope Z_scope.

Lemma c108_mixed_exact : forall o tl tr op a r x y, 8 <= rbits tl -> 8 <= rbits tr -> wf_args2 tl tr a ->
  rsigned (common_type tl tr) = true -> left_value a = Some x -> right_value a = Some y ->
  nw_arith o tl tr op a = Some (Ok r) ->
  wf_raw (common_type tl tr) r /\ same_value (value r) (exact op x y).
Proof.
  intros o tl tr op a r x y BL BR A S L R H. unfold nw_arith in H. destruct (Z.ltb_spec (rbits (common_type tl tr)) 32); [discriminate|].
  injection H as H. destruct (nw_args_id tl tr a) as (E & WA & WC); auto. rewrite E in H. split; [now apply (arith_wf o _ op a)|].
  pose proof (denote_exact o _ op a r WC S WA) as X. rewrite L, R in X. apply X; auto. split; congruence.
Qed.

Lemma c108_mixed_compare : forall o tl tr op a b, 8 <= rbits tl -> 8 <= rbits tr -> 32 <= rbits (common_type tl tr) -> wf_args2 tl tr a ->
  rsigned (common_type tl tr) = true -> is_eq_op op = true \/ order_domain o a ->
  nw_cmp o tl tr op a = Some (Ok b) -> b = exact_cmp_opt op (left_value a) (right_value a).
Proof.
  intros o tl tr op a b BL BR BC A S D H. unfold nw_cmp in H. destruct (Z.ltb_spec (rbits (common_type tl tr)) 32); [lia|].
  injection H as H. destruct (nw_args_id tl tr a) as (E & WA & WC); auto. rewrite E in H. apply (denote_cmp o (common_type tl tr)) in H; auto.
Qed.

Lemma c108_mixed_total : forall o tl tr op a x y, narrow tl -> narrow tr -> tl <> tr -> rbits tl + rbits tr <= 30 -> wf_args2 tl tr a ->
  left_value a = Some x -> right_value a = Some y -> (op = Modulus -> ~ (y == 0)%Q) ->
  exists r, nw_arith o tl tr op a = Some (Ok r) /\ wf_raw int32 r /\ same_value (value r) (exact op x y).
Proof.
  intros o tl tr op a x y NL NR D B A L R M. pose proof (common_narrow tl tr NL NR D) as C.
  assert (BL : 8 <= rbits tl) by apply NL. assert (BR : 8 <= rbits tr) by apply NR.
  assert (S : rsigned (common_type tl tr) = true) by now rewrite C.
  destruct (nw_args_id tl tr a) as (E & WA & WC); auto; [rewrite C; cbn; lia|].
  assert (H : exists r, nw_arith o tl tr op a = Some (Ok r)).
  { unfold nw_arith. rewrite E, C. cbn [rbits int32 Z.ltb]. change (32 <? 32) with false. cbn iota.
    assert (SI : signed_rep int32) by (split; [exact wf_int|reflexivity]).
    assert (P : products_fit (rmax int32) op (left_raw a) (right_raw a)).
    { rewrite int_max. unfold products_fit.
      assert (PL : Z.abs (num (left_raw a)) < 2 ^ rbits tl /\ Z.abs (den (left_raw a)) < 2 ^ rbits tl).
      { now apply (left_small tl tr). }
      assert (PR : Z.abs (num (right_raw a)) < 2 ^ rbits tr /\ Z.abs (den (right_raw a)) < 2 ^ rbits tr).
      { now apply (right_small tl tr). }
      assert (DL : den (left_raw a) <> 0) by (destruct a; cbn in *; try lia; intros Z0; unfold value in L; rewrite Z0 in L; discriminate).
      assert (DR : den (right_raw a) <> 0) by (destruct a; cbn in *; try lia; intros Z0; unfold value in R; rewrite Z0 in R; discriminate).
      assert (NR0 : op = Modulus -> num (right_raw a) <> 0).
      { intros MO Z0. apply (M MO). destruct a; cbn in *; [|injection R as <-; rewrite Z0; reflexivity|].
        all: rewrite value_defined in R by auto; injection R as <-; rewrite Z0; apply Qmult_0_l. }
      destruct PL as [PL1 PL2]. destruct PR as [PR1 PR2].
      assert (T30 : forall b, 8 <= b < 32 -> 2 ^ b <= 2 ^ 31) by (intros; apply Z.pow_le_mono_r; lia). change (2 ^ 31) with 2147483648 in T30.
      pose proof (T30 _ NL). pose proof (T30 _ NR).
      set (n := num (left_raw a)) in *. set (d := den (left_raw a)) in *. set (n' := num (right_raw a)) in *. set (d' := den (right_raw a)) in *.
      destruct (two_products n d d' n' _ _ PL1 PL2 PR2 PR1 BL BR B) as [T1 T2].
      destruct (two_products n d n' d' _ _ PL1 PL2 PR1 PR2 BL BR B) as [T3 T4].
      rewrite (Z.mul_comm n' d). split; [lia|]. clearbody n d n' d'. clear - T1 T2 T3 T4 DL DR NR0. destruct op; repeat split; auto; try lia. }
    destruct a; cbn [left_raw right_raw] in P.
    - destruct (c64_fractions o int32 op left right SI P) as [r HR]. exists r. now rewrite HR.
    - destruct (c64_fraction_integer o int32 op left right SI P) as [r HR]. exists r. now rewrite HR.
    - destruct (c64_integer_fraction o int32 op left right SI P) as [r HR]. exists r. now rewrite HR. }
  destruct H as [r H]. exists r. split; auto. destruct (c108_mixed_exact o tl tr op a r x y BL BR A S L R H) as [W X]. now rewrite C in W.
Qed.

Lemma c108_mixed_compare_total : forall o tl tr op a, narrow tl -> narrow tr -> tl <> tr -> rbits tl + rbits tr <= 30 -> wf_args2 tl tr a ->
  is_eq_op op = true \/ order_domain o a ->
  nw_cmp o tl tr op a = Some (Ok (exact_cmp_opt op (left_value a) (right_value a))).
Proof.
  intros o tl tr op a NL NR D B A DM. pose proof (common_narrow tl tr NL NR D) as C.
  assert (BL : 8 <= rbits tl) by apply NL. assert (BR : 8 <= rbits tr) by apply NR.
  assert (S : rsigned (common_type tl tr) = true) by now rewrite C.
  destruct (nw_args_id tl tr a) as (E & WA & WC); auto; [rewrite C; cbn; lia|].
  assert (H : exists b, nw_cmp o tl tr op a = Some (Ok b)).
  { unfold nw_cmp. rewrite E, C. cbn [rbits int32 Z.ltb]. change (32 <? 32) with false. cbn iota.
    assert (SI : signed_rep int32) by (split; [exact wf_int|reflexivity]).
    assert (P : cross_fit (rmax int32) (left_raw a) (right_raw a)).
    { rewrite int_max.
      assert (PL : Z.abs (num (left_raw a)) < 2 ^ rbits tl /\ Z.abs (den (left_raw a)) < 2 ^ rbits tl).
      { now apply (left_small tl tr). }
      assert (PR : Z.abs (num (right_raw a)) < 2 ^ rbits tr /\ Z.abs (den (right_raw a)) < 2 ^ rbits tr).
      { now apply (right_small tl tr). }
      destruct PL as [PL1 PL2]. destruct PR as [PR1 PR2].
      assert (T30 : forall b, 8 <= b < 32 -> 2 ^ b <= 2 ^ 31) by (intros; apply Z.pow_le_mono_r; lia). change (2 ^ 31) with 2147483648 in T30.
      pose proof (T30 _ NL). pose proof (T30 _ NR).
      set (n := num (left_raw a)) in *. set (d := den (left_raw a)) in *. set (n' := num (right_raw a)) in *. set (d' := den (right_raw a)) in *.
      destruct (two_products n d d' n' _ _ PL1 PL2 PR2 PR1 BL BR B) as [T1 T2].
      destruct (two_products n d n' d' _ _ PL1 PL2 PR1 PR2 BL BR B) as [T3 T4].
      unfold cross_fit. fold n d n' d'. rewrite ?(Z.mul_comm n' d). repeat split; lia. }
    destruct a; cbn [left_raw right_raw] in P.
    - destruct (c64_comparisons o int32 op left right SI P) as [r HR]. exists r. now rewrite HR.
    - destruct (c64_integer_comparisons o int32 op left right SI P) as [[r HR] _]. exists r. now rewrite HR.
    - destruct (c64_integer_comparisons o int32 op right left SI (cross_fit_sym _ _ _ P)) as [_ [r HR]]. exists r. now rewrite HR. }
  destruct H as [b H]. rewrite H. do 2 f_equal. apply (c108_mixed_compare o tl tr op a b); auto.
Qed.

Lemma c108_mixed_shorts_refuted : exists l r, wf_raw (mkRep true 16) l /\ wf_raw (mkRep false 16) r /\ value_is (fun q => q == 1)%Q l /\ value_is (fun q => q == 1)%Q r /\
  nw_arith Fast (mkRep true 16) (mkRep false 16) Plus (RR l r) = Some (UB Overflow) /\
  nw_arith Safe (mkRep true 16) (mkRep false 16) Plus (RR l r) = Some (UB Overflow).
Proof. exists (mkRaw (-32768) (-32768)), (mkRaw 65535 65535). vm_compute. repeat split. Qed.

Lemma c108_fast_total : forall o t op a, narrow t -> short_enough t -> no_input_layers o -> built_on_safe o = false -> wf_args t a ->
  is_eq_op op = true \/ positive_dens a ->
  nw_cmp o t t op a = Some (Ok (exact_cmp_opt op (left_value a) (right_value a))).
Proof.
  intros o t op a N S NI F A D. rewrite nw_cmp_same_type, same_bottom, F by auto. f_equal.
  apply (in_int_cmp Fast t); auto. destruct D as [D|D]; [auto|right]. unfold order_domain. auto.
Qed.

Lemma c108_unsigned_short_refuted :
  nw_cmp Fast (mkRep false 16) (mkRep false 16) Lt (RR (mkRaw 65535 1) (mkRaw 1 65535)) = Some (UB Overflow).
Proof. vm_compute. reflexivity. Qed.

Lemma c108_safe_exactly : forall o t op l r b, narrow t -> short_enough t -> no_input_layers o -> built_on_safe o = true ->
  wf_raw t l -> wf_raw t r ->
  nw_cmp o t t op (RR l r) = Some (Ok b) <->
  (value l = None \/ value r = None \/ lcm_fits t l r) /\ b = exact_cmp_opt op (value l) (value r).
Proof.
  intros o t op l r b N S NI F L R. rewrite nw_cmp_same_type, same_bottom, F by auto.
  assert (U : forall v, value v = None <-> den v = 0).
  { intros v. unfold value. destruct (Z.eqb_spec (den v) 0); split; auto; try discriminate. contradiction. }
  rewrite !U, <- safe_same by auto. split; congruence.
Qed.

Lemma c108_safe_integer : forall o t op a, narrow t -> short_enough t -> no_input_layers o -> built_on_safe o = true -> wf_args t a ->
  (forall l r, a <> RR l r) -> is_eq_op op = true \/ positive_dens a ->
  nw_cmp o t t op a = Some (Ok (exact_cmp_opt op (left_value a) (right_value a))).
Proof.
  intros o t op a N S NI F A NR D. rewrite nw_cmp_same_type, same_bottom, F by auto. f_equal.
  assert (X : nw_safe_cmp t op a = p_cmp (denote Safe) int32 op a) by (destruct a; [exfalso; eapply NR; reflexivity|reflexivity|reflexivity]).
  rewrite X. apply (in_int_cmp Safe t); auto. destruct D as [D|D]; [auto|right]. unfold order_domain. auto.
Qed.

Lemma c108_whole : forall t v q, narrow t -> wf_raw t v -> value v = Some q -> v <> mkRaw (rmin t) (-1) ->
  exists a b c, nw_trunc t v = Ok a /\ nw_floor t v = Ok b /\ nw_ceil t v = Ok c /\ is_trunc a q /\
    (tiny_negative q -> b = 0 /\ c = 1) /\ (~ tiny_negative q -> is_floor b q /\ is_ceil c q).
Proof. exact whole_narrow. Qed.

Lemma c108_whole_least : forall t, narrow t -> rsigned t = true ->
  nw_trunc t (mkRaw (rmin t) (-1)) = Ok (rmin t) /\ nw_floor t (mkRaw (rmin t) (-1)) = Ok (rmin t) /\
  nw_ceil t (mkRaw (rmin t) (-1)) = Ok (rmin t).
Proof. exact least_over. Qed.

Lemma c108_queries : forall t v, narrow t -> wf_raw t v ->
  (exists b, nw_is_integer v = Ok b /\ (b = true <-> value_is (fun q => exists k, q == inject_Z k)%Q v)) /\
  (exists b, nw_is_unit_fraction v = Ok b /\ (b = true <-> value_is (fun q => exists k, k <> 0%Z /\ q == 1 / inject_Z k)%Q v)).
Proof.
  intros t v N V. assert (X : exists b, is_integer int32 v = Ok b).
  { destruct (Z.eq_dec (den v) 0) as [D|D]; [unfold is_integer, is_defined; rewrite D; cbn; eauto|]. rewrite (is_integer_int t v) by auto. eauto. }
  assert (Y : exists b, is_unit_fraction int32 v = Ok b) by (apply is_unit_total with t; auto).
  destruct X as [b X]. destruct Y as [c Y]. split; [exists b|exists c]; (split; [assumption|]); [apply (c23_is_integer int32)|apply (c23_is_unit_fraction int32)]; auto.
Qed.

Lemma c108_proper : forall t v, narrow t -> wf_raw t v -> value v <> None ->
  exists b, nw_is_proper t v = Ok b /\
    (rsigned t = false \/ (num v = rmin t <-> den v = rmin t) -> (b = true <-> value_is (fun q => Qabs q < 1)%Q v)) /\
    (rsigned t = true /\ ~ (num v = rmin t <-> den v = rmin t) -> (b = false <-> value_is (fun q => Qabs q < 1)%Q v)).
Proof. exact proper_exactly. Qed.

Lemma c108_proper_refuted : exists v, wf_raw (mkRep true 16) v /\ value v = Some (-1 # 32768)%Q /\ nw_is_proper (mkRep true 16) v = Ok false.
Proof. exists (mkRaw 1 (-32768)). vm_compute. repeat split. Qed.

Lemma c108_signs : forall t v q, narrow t -> rsigned t = true -> wf_raw t v -> value v = Some q ->
  exists r p, nw_normalize_signs t v = Ok r /\ wf_raw t r /\ value r = Some p /\
    (0 < den v \/ (num v = rmin t <-> den v = rmin t) -> (p == q)%Q) /\
    (den v < 0 /\ ~ (num v = rmin t <-> den v = rmin t) -> (p == - q)%Q) /\
    (den v <> rmin t -> 0 < den r).
Proof. exact signs_exactly. Qed.

Lemma c108_signs_refuted : exists v r, wf_raw (mkRep true 16) v /\ value v = Some (-1 # 32768)%Q /\
  nw_normalize_signs (mkRep true 16) v = Ok r /\ value r = Some (1 # 32768)%Q.
Proof. exists (mkRaw 1 (-32768)), (mkRaw (-1) (-32768)). vm_compute. repeat split. Qed.

Lemma c108_pow2 : forall t e, narrow t -> Z.abs e < (if rsigned t then rbits t - 1 else rbits t) ->
  exists r v, nw_pow2 t e = Ok r /\ wf_raw t r /\ value r = Some v /\ (v == (2 # 1) ^ e)%Q.
Proof.
  intros t e N B. rewrite pow2_narrow by auto. pose proof N as [NL NU].
  assert (M : forall k, 0 <= k <= Z.abs e -> in_rep t (2 ^ k) = true /\ 0 < 2 ^ k).
  { intros k K. pose proof (Z.pow_pos_nonneg 2 k ltac:(lia) ltac:(lia)). split; auto. apply in_rep_iff.
    destruct (narrow_min t N) as [MN _]. unfold rmax in *.
    assert (2 ^ k < 2 ^ (if rsigned t then rbits t - 1 else rbits t)) by (apply Z.pow_lt_mono_r; destruct (rsigned t); lia).
    assert (0 < 2 ^ (rbits t - 1)) by (apply Z.pow_pos_nonneg; lia). destruct (rsigned t); lia. }
  assert (O : in_rep t 1 = true) by (apply (M 0); lia).
  rewrite Z.geb_leb. destruct (Z.leb_spec 0 e) as [P|P].
  - destruct (M e ltac:(lia)) as [I L]. eexists; eexists; split; eauto. rewrite value_over by lia. split; [split; auto|]. split; eauto.
    change (2 # 1)%Q with (inject_Z 2). rewrite inject_pow by lia. cbn. field.
  - destruct (M (- e) ltac:(lia)) as [I L]. eexists; eexists; split; eauto. rewrite value_over by lia. split; [split; auto|]. split; eauto.
    change (2 # 1)%Q with (inject_Z 2). rewrite <- (Z.opp_involutive e) at 2.
    rewrite Qpower.Qpower_opp, inject_pow by lia. unfold Qdiv. change (inject_Z 1) with 1%Q. ring.
Qed.

Lemma c108_pow2_refuted :
  nw_pow2 (mkRep true 16) 15 = Ok (mkRaw (-32768) 1) /\ nw_pow2 (mkRep true 16) (-16) = Ok (mkRaw 1 0) /\
  nw_pow2 (mkRep false 8) 31 = Ok (mkRaw 0 1).
Proof. vm_compute. repeat split. Qed.

