(** Lemmas on fractions of types narrower than int (C108). *)

From Coq Require Import ZArith QArith Qabs Bool Lia.
From Verif Require Import Machine Raw Ops Spec Fraction Fraction_spec Fmath Fmath_spec Tight_spec Narrow Narrow_spec.
From Verif Require Import Machine_proofs Value_proofs Ops_proofs Cmp_proofs Order_proofs Fraction_proofs Laws_proofs Fmath_proofs Fmath2_proofs.
Open Scope Z_scope.

Lemma wf_int : wf_rep int32. Proof. unfold wf_rep. cbn. lia. Qed.
#[local] Hint Resolve wf_int : core.
Lemma int_max : rmax int32 = 2147483647. Proof. reflexivity. Qed.
Lemma int_min : rmin int32 = -2147483648. Proof. reflexivity. Qed.
Lemma in_int : forall z, in_rep int32 z = true <-> -2147483648 <= z <= 2147483647.
Proof. intros. rewrite in_rep_iff, int_max, int_min. tauto. Qed.

Lemma wrap_narrow : forall t z, narrow t -> in_rep t z = true -> cast t z = z.
Proof.
  intros [s b] v [L _] H. apply in_rep_iff in H. unfold cast, rmin, rmax, wrap in *. cbn in *.
  assert (P : 2 ^ b = 2 * 2 ^ (b - 1)) by (apply pow2_split; lia). destruct s; rewrite Z.mod_small; lia.
Qed.
Lemma narrow_max : forall t, narrow t -> 127 <= rmax t <= 2147483647.
Proof.
  intros [s b] [L U]. unfold rmax. cbn in *. destruct s.
  - assert (2 ^ 7 <= 2 ^ (b - 1)) by (apply Z.pow_le_mono_r; lia). assert (2 ^ (b - 1) <= 2 ^ 30) by (apply Z.pow_le_mono_r; lia).
    change (2 ^ 7) with 128 in *. change (2 ^ 30) with 1073741824 in *. lia.
  - assert (2 ^ 7 <= 2 ^ b) by (apply Z.pow_le_mono_r; lia). assert (2 ^ b <= 2 ^ 31) by (apply Z.pow_le_mono_r; lia).
    change (2 ^ 7) with 128 in *. change (2 ^ 31) with 2147483648 in *. lia.
Qed.
Lemma narrow_min : forall t, narrow t -> rmin t = (if rsigned t then - rmax t - 1 else 0) /\ -1073741824 <= rmin t.
Proof.
  intros [s b] [L U]. unfold rmin, rmax. cbn in *. destruct s; [|lia].
  assert (2 ^ (b - 1) <= 2 ^ 30) by (apply Z.pow_le_mono_r; lia). change (2 ^ 30) with 1073741824 in *. lia.
Qed.
Lemma narrow_in_int : forall t z, narrow t -> in_rep t z = true -> in_rep int32 z = true.
Proof.
  intros t z N H. apply in_rep_iff in H. apply in_int. pose proof (narrow_max t N). pose proof (narrow_min t N). lia.
Qed.
Lemma narrow_raw : forall t v, narrow t -> wf_raw t v -> wf_raw int32 v.
Proof. intros t v N [A B]. split; now apply (narrow_in_int t). Qed.

(** ** Operands of two types *)

Lemma promote_wf : forall t, wf_rep (promote t).
Proof. intros t. unfold promote. destruct (Z.ltb_spec (rbits t) 32); auto. Qed.
Lemma promote_in : forall t z, 8 <= rbits t -> in_rep t z = true -> in_rep (promote t) z = true.
Proof.
  intros t z B H. unfold promote. destruct (Z.ltb_spec (rbits t) 32); auto. apply (narrow_in_int t); auto. split; lia.
Qed.
Lemma promote_raw : forall t v, 8 <= rbits t -> wf_raw t v -> wf_raw (promote t) v.
Proof. intros t v B [H1 H2]. split; now apply promote_in. Qed.

Lemma rep_eqb_eq : forall a b, rep_eqb a b = true <-> a = b.
Proof.
  intros [s b] [s' b']. unfold rep_eqb. cbn. rewrite andb_true_iff, eqb_true_iff, Z.eqb_eq. split; [intros [-> ->]; auto|intros E; injection E; auto].
Qed.

Lemma nw_args_id : forall tl tr a, 8 <= rbits tl -> 8 <= rbits tr -> 32 <= rbits (common_type tl tr) -> wf_args2 tl tr a ->
  rsigned (common_type tl tr) = true \/ non_negative_args a ->
  nw_args tl tr a = a /\ wf_args (common_type tl tr) a /\ wf_rep (common_type tl tr).
Proof.
  intros tl tr a BL BR C A S. assert (WC : wf_rep (common_type tl tr)) by exact C.
  cut (wf_args (common_type tl tr) a).
  { intros WA. split; [|auto]. unfold nw_args. destruct a; destruct WA; rewrite ?conv_raw_id, ?conv_int_id; auto. }
  unfold common_type in *. destruct (rep_eqb tl tr) eqn:E.
  - apply rep_eqb_eq in E. subst tr. destruct a; exact A.
  - assert (A' : wf_args2 (promote tl) (promote tr) a) by (destruct a; destruct A; split; auto using promote_raw, promote_in).
    assert (R : wf_reps (promote tl) (promote tr) a).
    { pose proof (promote_wf tl) as P1. pose proof (promote_wf tr) as P2. destruct a; split; auto; unfold wf_rep in *; lia. }
    exact (proj1 (proj2 (common_args_id (promote tl) (promote tr) a R A' S))).
Qed.

Lemma common_narrow : forall tl tr, narrow tl -> narrow tr -> tl <> tr -> common_type tl tr = int32.
Proof.
  intros tl tr [_ NL] [_ NR] D. unfold common_type. destruct (rep_eqb tl tr) eqn:E; [apply rep_eqb_eq in E; contradiction|].
  unfold promote. destruct (Z.ltb_spec (rbits tl) 32); [|lia]. destruct (Z.ltb_spec (rbits tr) 32); [|lia]. reflexivity.
Qed.

(** Magnitudes. *)
Lemma rep_abs : forall t z, narrow t -> in_rep t z = true -> Z.abs z < 2 ^ rbits t.
Proof.
  intros [s b] z [L U] H. apply in_rep_iff in H. unfold rmin, rmax in H. cbn in *.
  assert (2 ^ b = 2 * 2 ^ (b - 1)) by (apply pow2_split; lia). assert (0 < 2 ^ (b - 1)) by (apply pow2_pos; lia). destruct s; lia.
Qed.
Lemma two_products : forall a b c d bl br, Z.abs a < 2 ^ bl -> Z.abs b < 2 ^ bl -> Z.abs c < 2 ^ br -> Z.abs d < 2 ^ br ->
  8 <= bl -> 8 <= br -> bl + br <= 30 -> Z.abs (a * c) < 1073741824 /\ Z.abs (b * d) < 1073741824.
Proof.
  intros a b c d bl br A B C D L R S. assert (P : 2 ^ bl * 2 ^ br <= 1073741824).
  { rewrite <- Z.pow_add_r by lia. change 1073741824 with (2 ^ 30). apply Z.pow_le_mono_r; lia. }
  rewrite !Z.abs_mul. pose proof (Z.abs_nonneg a). pose proof (Z.abs_nonneg b). pose proof (Z.abs_nonneg c). pose proof (Z.abs_nonneg d).
  split; nia.
Qed.
Lemma one_small : forall b, 8 <= b -> Z.abs 1 < 2 ^ b.
Proof. intros b B. assert (2 ^ 8 <= 2 ^ b) by (apply Z.pow_le_mono_r; lia). change (2 ^ 8) with 256 in *. lia. Qed.

(** ** Operands of one type *)

Lemma short_abs : forall t z, narrow t -> short_enough t -> in_rep t z = true -> Z.abs z <= 32768.
Proof.
  intros t z N S H. apply in_rep_iff in H. destruct (narrow_min t N) as [M _]. unfold short_enough in S. destruct (rsigned t); lia.
Qed.
Lemma short_args : forall t a, narrow t -> short_enough t -> wf_args t a -> wf_args int32 a /\ args_bounded 32768 a.
Proof.
  intros t a N S A. destruct a; destruct A as [A B]; (split; [split; eauto using narrow_raw, narrow_in_int|]); unfold wf_raw in *;
    cbn; unfold raw_bounded; repeat split; apply (short_abs t); tauto.
Qed.
Lemma in_int_cmp : forall o t op a, narrow t -> short_enough t -> wf_args t a -> is_eq_op op = true \/ order_domain o a ->
  p_cmp (denote o) int32 op a = Ok (exact_cmp_opt op (left_value a) (right_value a)).
Proof.
  intros o t op a N S A D. destruct (short_args t a N S A) as [A' B]. apply (denote_cmp_total o int32 op a 32768); auto; rewrite int_max; lia.
Qed.

Lemma same_bottom : forall o t op a, no_input_layers o ->
  nw_cmp_same o t op a = Some (if built_on_safe o then nw_safe_cmp t op a else p_cmp fast int32 op a).
Proof. induction o; intros t op a H; cbn in H; try contradiction; cbn [nw_cmp_same built_on_safe]; auto. Qed.
Lemma nw_cmp_same_type : forall o t op a, narrow t -> nw_cmp o t t op a = nw_cmp_same o t op a.
Proof.
  intros o t op a [_ N]. unfold nw_cmp, common_type. assert (E : rep_eqb t t = true) by now apply rep_eqb_eq. rewrite E.
  destruct (Z.ltb_spec (rbits t) 32); [reflexivity|lia].
Qed.

Lemma std_lcm_narrow : forall t m n, narrow t ->
  std_lcm t m n = (if (Z.abs m <=? rmax t) && (Z.abs n <=? rmax t) && (Z.lcm m n <=? rmax t) then Ok (Z.lcm m n) else UB LibPrecond).
Proof.
  intros t m n N. destruct (narrow_min t N) as [M _]. pose proof (narrow_max t N). pose proof (Z.lcm_nonneg m n).
  unfold std_lcm, in_rep.
  assert (E : forall z, 0 <= z -> (rmin t <=? z) = true) by (intros z Z0; apply Z.leb_le; destruct (rsigned t); lia).
  rewrite !E by lia. reflexivity.
Qed.
Lemma nw_safe_rr : forall t cmp l r, narrow t ->
  nw_safe_cmp_rr t cmp l r =
  if (den l =? 0) || (den r =? 0) then Ok false
  else if (Z.abs (den l) <=? rmax t) && (Z.abs (den r) <=? rmax t) && (Z.lcm (den l) (den r) <=? rmax t)
  then nw_safe_cmp_rr int32 cmp l r else UB LibPrecond.
Proof.
  intros t cmp l r N. unfold nw_safe_cmp_rr, is_undefined, is_defined. rewrite !negb_involutive.
  destruct ((den l =? 0) || (den r =? 0)); auto. rewrite std_lcm_narrow by auto.
  destruct ((Z.abs (den l) <=? rmax t) && (Z.abs (den r) <=? rmax t) && (Z.lcm (den l) (den r) <=? rmax t)) eqn:E; [|reflexivity].
  apply andb_true_iff in E as [E E3]. apply andb_true_iff in E as [E1 E2]. apply Z.leb_le in E1, E2, E3.
  pose proof (narrow_max t N). pose proof (Z.lcm_nonneg (den l) (den r)).
  assert (X : std_lcm int32 (den l) (den r) = Ok (Z.lcm (den l) (den r))).
  { unfold std_lcm. assert (in_rep int32 (Z.abs (den l)) = true) as -> by (apply in_int; lia).
    assert (in_rep int32 (Z.abs (den r)) = true) as -> by (apply in_int; lia).
    assert (in_rep int32 (Z.lcm (den l) (den r)) = true) as -> by (apply in_int; lia). reflexivity. }
  rewrite X. reflexivity.
Qed.

Lemma safe_int : forall op l r, nw_safe_cmp int32 op (RR l r) = p_cmp safe int32 op (RR l r).
Proof. intros op l r. destruct op; reflexivity. Qed.

Theorem safe_same : forall t op l r b, narrow t -> short_enough t -> wf_raw t l -> wf_raw t r ->
  nw_safe_cmp t op (RR l r) = Ok b <->
  (den l = 0 \/ den r = 0 \/ lcm_fits t l r) /\ b = exact_cmp_opt op (value l) (value r).
Proof.
  intros t op l r b N S L R.
  assert (F : p_cmp safe int32 op (RR l r) = Ok (exact_cmp_opt op (value l) (value r))).
  { apply (in_int_cmp Safe t op (RR l r)); auto; [now split|]. right. unfold order_domain. cbn. tauto. }
  rewrite <- safe_int in F. unfold lcm_fits.
  assert (G : nw_safe_cmp t op (RR l r) =
    if (den l =? 0) || (den r =? 0) then Ok (exact_cmp_opt op (value l) (value r))
    else if (Z.abs (den l) <=? rmax t) && (Z.abs (den r) <=? rmax t) && (Z.lcm (den l) (den r) <=? rmax t)
    then Ok (exact_cmp_opt op (value l) (value r)) else UB LibPrecond).
  { destruct op; cbn [nw_safe_cmp] in F |- *; rewrite (nw_safe_rr t) by auto;
      rewrite ?(orb_comm (den r =? 0)), ?(Z.lcm_comm (den r)), ?(andb_comm (Z.abs (den r) <=? rmax t));
      (destruct ((den l =? 0) || (den r =? 0)) eqn:U;
      [unfold value; apply orb_true_iff in U as [-> | ->]; [reflexivity|destruct (den l =? 0); reflexivity]
      |destruct ((Z.abs (den l) <=? rmax t) && (Z.abs (den r) <=? rmax t) && (Z.lcm (den l) (den r) <=? rmax t)); [exact F|reflexivity]]). }
  rewrite G. destruct (Z.eqb_spec (den l) 0) as [E1|E1]; [cbn [orb]; split; [intros H; injection H as <-; auto|intros [_ ->]; auto]|].
  destruct (Z.eqb_spec (den r) 0) as [E2|E2]; [cbn [orb]; split; [intros H; injection H as <-; auto|intros [_ ->]; auto]|].
  cbn [orb]. destruct (Z.leb_spec (Z.abs (den l)) (rmax t)); cbn [andb]; [|split; [discriminate|intros [[?|[?|?]] _]; lia]].
  destruct (Z.leb_spec (Z.abs (den r)) (rmax t)); cbn [andb]; [|split; [discriminate|intros [[?|[?|?]] _]; lia]].
  destruct (Z.leb_spec (Z.lcm (den l) (den r)) (rmax t)); cbn [andb]; [|split; [discriminate|intros [[?|[?|?]] _]; lia]].
  split; [intros H'; injection H' as <-; tauto|intros [_ ->]; auto].
Qed.

(** ** Rounding *)

Lemma int_div : forall t v, narrow t -> wf_raw t v -> den v <> 0 -> m_div int32 (num v) (den v) = Ok (Z.quot (num v) (den v)).
Proof.
  intros t v N [A B] D. unfold m_div. destruct (Z.eqb_spec (den v) 0); [contradiction|]. apply arith_in; auto.
  apply in_rep_iff in A. destruct (narrow_min t N) as [M M']. pose proof (narrow_max t N). apply in_int.
  assert (-1073741824 <= num v <= 2147483647) by lia.
  destruct (Z.eq_dec (num v) 0) as [->|NZ]; [rewrite Z.quot_0_l; lia|].
  assert (Q : Z.abs (Z.quot (num v) (den v)) <= Z.abs (num v)).
  { rewrite <- Z.quot_abs by lia. apply Z.quot_le_upper_bound; nia. }
  lia.
Qed.

(** The quotient is in the narrow type, but for the least number over -1. *)
Lemma quot_in : forall t v, narrow t -> wf_raw t v -> den v <> 0 -> v <> mkRaw (rmin t) (-1) ->
  in_rep t (Z.quot (num v) (den v)) = true.
Proof.
  intros t v N [A B] D X. apply in_rep_iff in A. apply in_rep_iff in B. apply in_rep_iff.
  destruct (narrow_min t N) as [M _]. pose proof (narrow_max t N).
  destruct (rsigned t).
  - assert (Q : Z.abs (Z.quot (num v) (den v)) * Z.abs (den v) <= Z.abs (num v)).
    { rewrite <- Z.quot_abs, Z.mul_comm by lia. apply Z.mul_quot_le; lia. }
    assert (Z.abs (Z.quot (num v) (den v)) <= Z.abs (num v)) by nia.
    destruct (Z.eq_dec (num v) (rmin t)) as [E|E]; [|lia].
    destruct (Z.eq_dec (den v) (-1)) as [E'|E']; [exfalso; apply X; destruct v; cbn in *; congruence|].
    destruct (Z.eq_dec (den v) 1) as [E''|E'']; [rewrite E'', Z.quot_1_r; lia|]. nia.
  - rewrite Z.quot_div_nonneg by lia. split; [rewrite M; apply Z.div_pos; lia|].
    apply Z.le_trans with (num v); [|lia]. apply Z.div_le_upper_bound; nia.
Qed.

Lemma trunc_int : forall t v, narrow t -> wf_raw t v -> den v <> 0 -> v <> mkRaw (rmin t) (-1) -> nw_trunc t v = f_trunc int32 v.
Proof.
  intros t v N V D X. unfold nw_trunc, f_trunc. rewrite (int_div t) by auto. cbn [bind]. now rewrite wrap_narrow by auto using quot_in.
Qed.

Lemma is_integer_int : forall t v, narrow t -> wf_raw t v -> den v <> 0 ->
  is_integer int32 v = Ok (Z.rem (num v) (den v) =? 0).
Proof.
  intros t v N V D. unfold is_integer, is_defined, m_rem. destruct (Z.eqb_spec (den v) 0); [contradiction|]. cbn [negb].
  pose proof (int_div t v N V D) as H. unfold m_div in H. destruct (Z.eqb_spec (den v) 0); [contradiction|]. rewrite H. reflexivity.
Qed.

Lemma half_quot : forall n d, d <> 0 -> Z.rem n d <> 0 -> 2 * Z.abs (Z.quot n d) <= Z.abs n.
Proof.
  intros n d D R. assert (D1 : 2 <= Z.abs d).
  { destruct (Z.eq_dec d 1) as [->|]; [rewrite Z.rem_1_r in R; lia|].
    destruct (Z.eq_dec d (-1)) as [->|]; [|lia]. change (-1) with (- (1)) in R. rewrite Z.rem_opp_r, Z.rem_1_r in R; lia. }
  assert (Q : Z.abs (Z.quot n d) * Z.abs d <= Z.abs n).
  { rewrite <- Z.quot_abs, Z.mul_comm by lia. apply Z.mul_quot_le; lia. }
  nia.
Qed.

Lemma floor_int : forall t v, narrow t -> wf_raw t v -> den v <> 0 -> v <> mkRaw (rmin t) (-1) -> nw_floor t v = f_floor int32 v.
Proof.
  intros t v N V D X. unfold nw_floor, f_floor. rewrite (trunc_int t) by auto. unfold f_trunc. rewrite (int_div t) by auto. cbn [bind].
  unfold nw_is_integer. rewrite (is_integer_int t) by auto. cbn [bind].
  destruct (Z.eqb_spec (Z.rem (num v) (den v)) 0) as [R|R]; [reflexivity|]. cbn [orb].
  destruct (Z.geb_spec (Z.quot (num v) (den v)) 0) as [Q|Q]; [reflexivity|].
  pose proof (half_quot _ _ D R). destruct V as [A B]. apply in_rep_iff in A. apply in_rep_iff in B.
  destruct (narrow_min t N) as [M M']. pose proof (narrow_max t N).
  assert (I : in_rep t (Z.quot (num v) (den v) - 1) = true).
  { apply in_rep_iff. destruct (rsigned t); [lia|]. exfalso. pose proof (Z.quot_pos (num v) (den v)). lia. }
  unfold m_sub. rewrite arith_in; auto; [|now apply (narrow_in_int t)]. cbn [bind]. now rewrite wrap_narrow.
Qed.

Lemma ceil_int : forall t v, narrow t -> wf_raw t v -> den v <> 0 -> v <> mkRaw (rmin t) (-1) -> nw_ceil t v = f_ceil int32 v.
Proof.
  intros t v N V D X. unfold nw_ceil, f_ceil. rewrite (trunc_int t) by auto. unfold f_trunc. rewrite (int_div t) by auto. cbn [bind].
  unfold nw_is_integer. rewrite (is_integer_int t) by auto. cbn [bind].
  destruct (Z.eqb_spec (Z.rem (num v) (den v)) 0) as [R|R]; [reflexivity|]. cbn [orb].
  destruct (Z.ltb_spec (Z.quot (num v) (den v)) 0) as [Q|Q]; [reflexivity|].
  pose proof (half_quot _ _ D R). destruct V as [A B]. apply in_rep_iff in A.
  destruct (narrow_min t N) as [M M']. pose proof (narrow_max t N).
  assert (NZ : num v <> 0) by (intros E; rewrite E, Z.rem_0_l in R by auto; lia).
  assert (I : in_rep t (Z.quot (num v) (den v) + 1) = true).
  { apply in_rep_iff. destruct (rsigned t); lia. }
  unfold m_add. rewrite arith_in; auto; [|now apply (narrow_in_int t)]. cbn [bind]. now rewrite wrap_narrow.
Qed.

Theorem whole_narrow : forall t v q, narrow t -> wf_raw t v -> value v = Some q -> v <> mkRaw (rmin t) (-1) ->
  exists a b c, nw_trunc t v = Ok a /\ nw_floor t v = Ok b /\ nw_ceil t v = Ok c /\ is_trunc a q /\
    (tiny_negative q -> b = 0 /\ c = 1) /\ (~ tiny_negative q -> is_floor b q /\ is_ceil c q).
Proof.
  intros t v q N V VQ X. assert (D : den v <> 0) by (intros Z0; unfold value in VQ; rewrite Z0 in VQ; discriminate).
  pose proof (narrow_raw t v N V) as VI. rewrite (trunc_int t), (floor_int t), (ceil_int t) by auto.
  assert (T : f_trunc int32 v = Ok (Z.quot (num v) (den v))) by (apply (int_div t); auto).
  assert (II := is_integer_int t v N V D).
  assert (G : in_rep t (Z.quot (num v) (den v)) = true) by now apply quot_in. apply in_rep_iff in G.
  destruct (narrow_min t N) as [M M']. pose proof (narrow_max t N) as MX.
  assert (R : exists b c, f_floor int32 v = Ok b /\ f_ceil int32 v = Ok c).
  { unfold f_floor, f_ceil. rewrite T, II. cbn [bind].
    destruct ((Z.rem (num v) (den v) =? 0) || (Z.quot (num v) (den v) >=? 0)) eqn:C1;
    destruct ((Z.rem (num v) (den v) =? 0) || (Z.quot (num v) (den v) <? 0)) eqn:C2; eauto.
    - assert (Z.rem (num v) (den v) <> 0) as RR by (intros Z0; rewrite Z0 in C2; discriminate).
      pose proof (half_quot _ _ D RR). destruct V as [A _]. apply in_rep_iff in A.
      unfold m_add. rewrite arith_in; eauto. apply in_int. lia.
    - unfold m_sub. rewrite arith_in; eauto. apply in_int. lia.
    - apply orb_false_iff in C1 as [_ C1]. apply orb_false_iff in C2 as [_ C2]. rewrite Z.geb_leb in C1. apply Z.leb_gt in C1. apply Z.ltb_ge in C2. lia. }
  destruct R as (b & c & F & C). exists (Z.quot (num v) (den v)), b, c.
  destruct (f_trunc_spec _ _ _ wf_int VI T) as (q1 & Q1 & T1). destruct (f_floor_spec _ _ _ wf_int VI F) as (q2 & Q2 & F1 & F2).
  destruct (f_ceil_spec _ _ _ wf_int VI C) as (q3 & Q3 & C1 & C2).
  rewrite VQ in Q1, Q2, Q3. injection Q1 as <-. injection Q2 as <-. injection Q3 as <-.
  repeat (split; [assumption|]). split; auto.
Qed.

(** The least number over -1. *)
Lemma cast_least : forall t, narrow t -> rsigned t = true -> cast t (- rmin t) = rmin t.
Proof.
  intros t N S. destruct N as [L U]. unfold cast, wrap, rmin. rewrite S. assert (P : 2 ^ rbits t = 2 * 2 ^ (rbits t - 1)) by (apply pow2_split; lia).
    assert (0 < 2 ^ (rbits t - 1)) by (apply pow2_pos; lia). rewrite P.
    replace (- - 2 ^ (rbits t - 1) + 2 ^ (rbits t - 1)) with (1 * (2 * 2 ^ (rbits t - 1))) by lia. rewrite Z.mod_mul by lia. lia.
Qed.
Lemma least_over : forall t, narrow t -> rsigned t = true ->
  nw_trunc t (mkRaw (rmin t) (-1)) = Ok (rmin t) /\ nw_floor t (mkRaw (rmin t) (-1)) = Ok (rmin t) /\ nw_ceil t (mkRaw (rmin t) (-1)) = Ok (rmin t).
Proof.
  intros t N S. destruct (narrow_min t N) as [M M']. rewrite S in M. pose proof (narrow_max t N).
  assert (V : wf_raw t (mkRaw (rmin t) (-1))) by (split; cbn; apply in_rep_iff; lia).
  assert (D : den (mkRaw (rmin t) (-1)) <> 0) by (cbn; lia).
  assert (Q : Z.quot (rmin t) (-1) = - rmin t) by (change (-1) with (- (1)); rewrite Z.quot_opp_r, Z.quot_1_r; lia).
  assert (R : Z.rem (rmin t) (-1) = 0) by (change (-1) with (- (1)); rewrite Z.rem_opp_r, Z.rem_1_r; lia).
  pose proof (cast_least t N S) as W.
  assert (T : nw_trunc t (mkRaw (rmin t) (-1)) = Ok (rmin t)).
  { unfold nw_trunc. rewrite (int_div t) by auto. cbn [bind num den]. now rewrite Q, W. }
  unfold nw_floor, nw_ceil, nw_is_integer. rewrite T, (is_integer_int t) by auto. cbn [bind num den]. rewrite R. auto.
Qed.

(** ** Queries *)

Lemma abs_narrow : forall t z, narrow t -> in_rep t z = true -> ~ (rsigned t = true /\ z = rmin t) -> nw_abs t z = mu_abs int32 z.
Proof.
  intros t z N H L. unfold nw_abs, mu_abs. destruct (narrow_min t N) as [M M']. pose proof (narrow_max t N).
  destruct (Z.geb_spec z 0) as [G|G].
  - cbn [bind]. now rewrite wrap_narrow.
  - apply in_rep_iff in H. unfold m_neg. rewrite arith_in; auto; [|apply in_int; lia]. cbn [bind]. rewrite wrap_narrow; auto.
    apply in_rep_iff. destruct (rsigned t); [|lia]. assert (z <> rmin t) by tauto. lia.
Qed.

Lemma proper_narrow : forall t v, narrow t -> wf_raw t v -> ~ (rsigned t = true /\ (num v = rmin t \/ den v = rmin t)) ->
  nw_is_proper t v = is_proper int32 v.
Proof.
  intros t v N [A B] X. unfold nw_is_proper, is_proper. rewrite !abs_narrow by tauto. reflexivity.
Qed.

Lemma signs_narrow : forall t v, narrow t -> wf_raw t v -> 0 < den v \/ ~ (rsigned t = true /\ (num v = rmin t \/ den v = rmin t)) -> rsigned t = true ->
  nw_normalize_signs t v = normalize_signs int32 v.
Proof.
  intros t v N [A B] X S. unfold nw_normalize_signs, normalize_signs. rewrite Z.gtb_ltb. destruct (Z.ltb_spec 0 (den v)); auto.
  assert (Y : num v <> rmin t /\ den v <> rmin t) by (destruct X; [lia|tauto]). apply in_rep_iff in A. apply in_rep_iff in B.
  destruct (narrow_min t N) as [M M']. rewrite S in M. pose proof (narrow_max t N).
  unfold m_neg. rewrite !arith_in by (auto; apply in_int; lia). cbn [bind]. rewrite !wrap_narrow by (auto; apply in_rep_iff; lia). reflexivity.
Qed.

(** ** pow2 *)

Lemma mu_pow2_narrow : forall t e, narrow t -> 0 <= e <= rmax t -> e < (if rsigned t then rbits t - 1 else rbits t) ->
  nw_mu_pow2 t e = Ok (2 ^ e).
Proof.
  intros t e N E B. unfold nw_mu_pow2. pose proof N as [L U].
  assert (C : cast (make_unsigned t) e = e).
  { unfold cast, wrap, make_unsigned. cbn. apply Z.mod_small. split; [lia|]. unfold rmax in E.
    assert (2 ^ (rbits t - 1) <= 2 ^ rbits t) by (apply Z.pow_le_mono_r; lia). destruct (rsigned t); lia. }
  assert (P : 2 ^ e < 2 ^ (if rsigned t then rbits t - 1 else rbits t)) by (apply Z.pow_lt_mono_r; lia).
  assert (P31 : 2 ^ e <= 2 ^ 30) by (apply Z.pow_le_mono_r; destruct (rsigned t); lia). change (2 ^ 30) with 1073741824 in P31.
  assert (P0 : 0 < 2 ^ e) by (apply pow2_pos; lia).
  rewrite C. unfold m_shl. assert ((0 <=? e) && (e <? rbits int32) = true) as ->.
  { apply andb_true_iff. rewrite Z.leb_le, Z.ltb_lt. cbn. destruct (rsigned t); lia. }
  cbn [bind]. rewrite Z.mul_1_l, (wrap_id int32); [|exact wf_int|apply in_int; lia]. rewrite wrap_narrow; auto.
  apply in_rep_iff. unfold rmin, rmax. destruct (rsigned t); lia.
Qed.

Theorem pow2_narrow : forall t e, narrow t -> Z.abs e < (if rsigned t then rbits t - 1 else rbits t) ->
  nw_pow2 t e = Ok (if e >=? 0 then mkRaw (2 ^ e) 1 else mkRaw 1 (2 ^ - e)).
Proof.
  intros t e N B. pose proof N as [L U]. pose proof (narrow_max t N) as MX. destruct (narrow_min t N) as [M M'].
  assert (R : Z.abs e <= rmax t).
  { destruct (rsigned t); lia. }
  unfold nw_pow2. destruct (Z.geb_spec e 0) as [G|G].
  - rewrite wrap_narrow by (auto; apply in_rep_iff; destruct (rsigned t); lia). rewrite mu_pow2_narrow; [reflexivity|auto|lia|].
    rewrite Z.abs_eq in B; lia.
  - unfold m_neg. rewrite arith_in; [|exact wf_int|apply in_int; destruct (rsigned t); lia]. cbn [bind].
    rewrite wrap_narrow by (auto; apply in_rep_iff; destruct (rsigned t); lia). rewrite mu_pow2_narrow; [reflexivity|auto|lia|].
    rewrite Z.abs_neq in B; lia.
Qed.

Lemma cross_fit_sym : forall m l r, cross_fit m l r -> cross_fit m r l.
Proof. intros m l r. unfold cross_fit. rewrite (Z.mul_comm (den r) (den l)). tauto. Qed.

Lemma is_unit_total : forall t v, narrow t -> wf_raw t v -> exists b, is_unit_fraction int32 v = Ok b.
Proof.
  intros t v N V. unfold is_unit_fraction. destruct (is_defined v && negb (num v =? 0)) eqn:D; [|eauto].
  apply andb_true_iff in D as [_ D]. apply negb_true_iff, Z.eqb_neq in D.
  assert (W : wf_raw t (mkRaw (den v) (num v))) by (destruct V; split; auto).
  pose proof (int_div t _ N W D) as H. cbn in H. unfold m_div in H. unfold m_rem.
  destruct (Z.eqb_spec (num v) 0); [contradiction|]. rewrite H. cbn. eauto.
Qed.

Lemma left_small : forall tl tr a, narrow tl -> wf_args2 tl tr a ->
  Z.abs (num (left_raw a)) < 2 ^ rbits tl /\ Z.abs (den (left_raw a)) < 2 ^ rbits tl.
Proof. intros tl tr a N A. destruct a; destruct A as [A _]; cbn; [destruct A|destruct A|]; split; try (now apply rep_abs). apply one_small, N. Qed.
Lemma right_small : forall tl tr a, narrow tr -> wf_args2 tl tr a ->
  Z.abs (num (right_raw a)) < 2 ^ rbits tr /\ Z.abs (den (right_raw a)) < 2 ^ rbits tr.
Proof. intros tl tr a N A. destruct a; destruct A as [_ A]; cbn; [destruct A| |destruct A]; split; try (now apply rep_abs). apply one_small, N. Qed.

Lemma abs_least : forall t, narrow t -> rsigned t = true -> nw_abs t (rmin t) = Ok (rmin t).
Proof.
  intros t N S. destruct (narrow_min t N) as [M M']. rewrite S in M. pose proof (narrow_max t N). unfold nw_abs, mu_abs.
  destruct (Z.geb_spec (rmin t) 0); [lia|]. unfold m_neg. rewrite arith_in by (auto; apply in_int; lia). cbn [bind]. now rewrite cast_least.
Qed.
Lemma abs_other : forall t z, narrow t -> in_rep t z = true -> ~ (rsigned t = true /\ z = rmin t) -> nw_abs t z = Ok (Z.abs z).
Proof.
  intros t z N H X. rewrite abs_narrow by auto. unfold mu_abs. destruct (narrow_min t N) as [M M']. pose proof (narrow_max t N).
  apply in_rep_iff in H. destruct (Z.geb_spec z 0); [f_equal; lia|]. unfold m_neg. rewrite arith_in by (auto; apply in_int; lia). f_equal; lia.
Qed.
Lemma proper_q : forall n d, d <> 0 -> (Z.abs n < Z.abs d <-> value_is (fun q => Qabs q < 1)%Q (mkRaw n d)).
Proof.
  intros n d D. rewrite value_is_div. cbn [num den]. assert (O : (1 == inject_Z 1 / inject_Z 1)%Q) by reflexivity.
  rewrite Qabs_div, O, qdiv_lt by lia. split; [intros; split; auto|intros [_ ?]]; nia.
Qed.

Lemma proper_exactly : forall t v, narrow t -> wf_raw t v -> value v <> None ->
  exists b, nw_is_proper t v = Ok b /\
    (rsigned t = false \/ (num v = rmin t <-> den v = rmin t) -> (b = true <-> value_is (fun q => Qabs q < 1)%Q v)) /\
    (rsigned t = true /\ ~ (num v = rmin t <-> den v = rmin t) -> (b = false <-> value_is (fun q => Qabs q < 1)%Q v)).
Proof.
  intros t [n d] N [A B] D. cbn [num den] in *. assert (DZ : d <> 0) by (intros ->; now apply D). pose proof (proper_q n d DZ) as PQ.
  set (P := value_is _ _) in *. clearbody P.
  destruct (narrow_min t N) as [M M']. pose proof (narrow_max t N) as X. pose proof A as A'. pose proof B as B'. apply in_rep_iff in A'. apply in_rep_iff in B'.
  unfold nw_is_proper. cbn [num den].
  destruct (rsigned t) eqn:S.
  2:{ rewrite !abs_other by (auto; intros [Q _]; congruence). cbn [bind]. eexists; split; [reflexivity|]. rewrite <- PQ, Z.ltb_lt, Z.ltb_ge. split; [tauto|intros [Q _]; discriminate]. }
  destruct (Z.eq_dec n (rmin t)) as [->|NE], (Z.eq_dec d (rmin t)) as [->|DE]; rewrite ?abs_least by auto; rewrite ?abs_other by (auto; tauto); cbn [bind].
  - eexists; split; [reflexivity|]. rewrite <- PQ, Z.ltb_lt. split; [lia|tauto].
  - eexists; split; [reflexivity|]. rewrite <- PQ, Z.ltb_lt, Z.ltb_ge. split; [intros [Q|Q]; [discriminate|tauto]|lia].
  - eexists; split; [reflexivity|]. rewrite <- PQ, Z.ltb_lt, Z.ltb_ge. split; [intros [Q|Q]; [discriminate|tauto]|lia].
  - eexists; split; [reflexivity|]. rewrite <- PQ, Z.ltb_lt. split; [lia|tauto].
Qed.

Lemma signs_exactly : forall t v q, narrow t -> rsigned t = true -> wf_raw t v -> value v = Some q ->
  exists r p, nw_normalize_signs t v = Ok r /\ wf_raw t r /\ value r = Some p /\
    (0 < den v \/ (num v = rmin t <-> den v = rmin t) -> (p == q)%Q) /\
    (den v < 0 /\ ~ (num v = rmin t <-> den v = rmin t) -> (p == - q)%Q) /\
    (den v <> rmin t -> 0 < den r).
Proof.
  intros t [n d] q N S [A B] V. cbn [num den] in *. assert (D : d <> 0) by (intros ->; discriminate).
  rewrite value_over in V by auto. injection V as <-.
  destruct (narrow_min t N) as [M M']. pose proof (narrow_max t N) as X. rewrite S in M. pose proof A as A'. pose proof B as B'. apply in_rep_iff in A'. apply in_rep_iff in B'.
  unfold nw_normalize_signs. cbn [num den]. rewrite Z.gtb_ltb. destruct (Z.ltb_spec 0 d) as [P|P].
  { exists (mkRaw n d), (inject_Z n / inject_Z d)%Q. rewrite value_over by auto. repeat split; auto; try reflexivity. lia. }
  unfold m_neg. rewrite !arith_in by (auto; apply in_int; lia). cbn [bind].
  assert (C : forall z, in_rep t z = true -> z <> rmin t -> cast t (- z) = - z).
  { intros z Hz Nz. apply in_rep_iff in Hz. unfold cast. apply wrap_narrow; auto. apply in_rep_iff. lia. }
  assert (DQ : ~ (inject_Z d == 0)%Q) by (intros E; apply D; unfold Qeq in E; cbn in E; lia).
  destruct (Z.eq_dec n (rmin t)) as [NE|NE], (Z.eq_dec d (rmin t)) as [DE|DE].
  - rewrite NE, DE, cast_least by auto. exists (mkRaw (rmin t) (rmin t)), (inject_Z (rmin t) / inject_Z (rmin t))%Q. rewrite value_over by lia.
    repeat split; cbn; auto; try (apply in_rep_iff; lia); try reflexivity; tauto.
  - rewrite NE, cast_least, C by auto. eexists _, _. split; [reflexivity|]. rewrite value_over by lia.
    split; [split; cbn; apply in_rep_iff; lia|]. split; [reflexivity|]. rewrite inject_Z_opp. split; [intros [Q|Q]; [lia|tauto]|]. split; [intros _; field; auto|cbn; lia].
  - rewrite DE, cast_least, C by auto. eexists _, _. split; [reflexivity|]. rewrite value_over by lia.
    split; [split; cbn; apply in_rep_iff; lia|]. split; [reflexivity|]. rewrite inject_Z_opp. split; [intros [Q|Q]; [lia|tauto]|]. split; [intros _; field; congruence|tauto].
  - rewrite !C by auto. eexists _, _. split; [reflexivity|]. rewrite value_over by lia.
    split; [split; cbn; apply in_rep_iff; lia|]. split; [reflexivity|]. rewrite !inject_Z_opp. split; [intros _; field; auto|]. split; [tauto|cbn; lia].
Qed.
