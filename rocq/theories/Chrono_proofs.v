(** Proofs about durations. *)

From Coq Require Import ZArith QArith List Bool Lia Lqa.
From Verif Require Import Machine Raw Ops Spec Fraction Chrono Chrono_spec Mixed_spec.
From Verif Require Import Machine_proofs Value_proofs Ops_proofs Algebra_proofs Fraction_proofs Fmath_proofs
  Limits_proofs Literals_proofs Mixed_proofs Tight_spec Tight_proofs Cmp_claims.
Import ListNotations.
Open Scope Z_scope.

Lemma some_inj : forall (A : Type) (x y : A), Some x = Some y -> x = y.
Proof. congruence. Qed.

Lemma make_ratio_ok : forall n d p, 0 < n -> 0 < d -> make_ratio n d = Some p ->
  wf_period p /\ (period_value p == inject_Z n / inject_Z d)%Q.
Proof.
  intros n d p N D H. unfold make_ratio in H. destruct (_ && _) eqn:E; [|discriminate].
  apply andb_true_iff in E as [E1 E2]. inversion H; subst p; clear H.
  pose proof (Z.gcd_nonneg n d). assert (G : Z.gcd n d <> 0) by (intros X; apply Z.gcd_eq_0_l in X; lia).
  destruct (Z.gcd_divide_l n d) as [a A]. destruct (Z.gcd_divide_r n d) as [b B].
  assert (QA : n / Z.gcd n d = a) by (rewrite A at 1; now apply Z.div_mul).
  assert (QB : d / Z.gcd n d = b) by (rewrite B at 1; now apply Z.div_mul).
  split.
  - unfold wf_period. cbn [pnum pden]. repeat split; auto.
    + rewrite QA. nia.
    + rewrite QB. nia.
    + apply Z.gcd_div_gcd; auto.
  - unfold period_value. cbn [pnum pden]. rewrite QA, QB. apply qdiv_eq; try nia.
Qed.

Lemma period_pos : forall p, wf_period p -> (0 < period_value p)%Q.
Proof.
  intros p [[A [B _]] _]. unfold period_value. change 0%Q with (inject_Z 0). apply Qlt_int_div; nia.
Qed.

Lemma ratio_divide_ok : forall a b cf, wf_period a -> wf_period b -> ratio_divide a b = Some cf ->
  wf_period cf /\ (period_value cf * period_value b == period_value a)%Q.
Proof.
  intros a b cf [[A1 [A2 _]] _] [[B1 [B2 _]] _] H. unfold ratio_divide in H.
  apply make_ratio_ok in H as [W V]; try nia. split; auto. rewrite V.
  unfold period_value. rewrite !inject_Z_mult. field. repeat split; apply iz_nz; lia.
Qed.

Lemma common_period_ok : forall a b pc, wf_period a -> wf_period b -> common_period a b = Some pc -> wf_period pc.
Proof.
  intros a b pc [[A1 [A2 _]] _] [[B1 [B2 _]] _] H. unfold common_period in H.
  apply make_ratio_ok in H as [W _]; auto.
  - pose proof (Z.gcd_nonneg (pnum a) (pnum b)).
    assert (Z.gcd (pnum a) (pnum b) <> 0) by (intros X; apply Z.gcd_eq_0_l in X; lia). lia.
  - pose proof (Z.lcm_nonneg (pden a) (pden b)).
    assert (Z.lcm (pden a) (pden b) <> 0) by (intros X; apply Z.lcm_eq_0 in X; lia). lia.
Qed.

Lemma factor_in : forall t a b cf, signed_rep t -> wf_period a -> wf_period b ->
  ratio_divide a b = Some cf -> factor_fits t a b ->
  in_rep t (pnum cf) = true /\ in_rep t (pden cf) = true.
Proof.
  intros t a b cf [W S] A B H F. destruct (ratio_divide_ok a b cf A B H) as [C V].
  pose proof C as [[C1 [C2 C3]] _].
  destruct (F (pnum cf) (pden cf)) as [X Y]; auto.
  - fold (period_value cf). pose proof (period_pos b B). rewrite <- V. field. lra.
  - pose proof (rmin_nonpos t W). split; apply in_rep_iff; lia.
Qed.

Lemma factor_fits_64 : forall t a b, signed_rep t -> 64 <= rbits t -> wf_period a -> wf_period b ->
  ratio_divide a b <> None -> factor_fits t a b.
Proof.
  intros t a b SR L A B N n d Hn Hd G E. destruct (ratio_divide a b) as [cf|] eqn:R; [|congruence].
  destruct (ratio_divide_ok a b cf A B R) as [[[C1 [C2 C3]] [C4 C5]] V].
  pose proof (period_pos b B).
  assert (EQ : mkRaw n d = mkRaw (pnum cf) (pden cf)).
  { apply canonical_unique.
    - right. cbn. auto.
    - right. cbn. auto.
    - rewrite !value_defined by (cbn; lia). cbn [num den same_value]. rewrite E. fold (period_value cf).
      rewrite <- V. field. lra. }
  inversion EQ; subst n d.
  assert (S64 : signed_rep int64) by (split; [unfold wf_rep; cbn; lia|reflexivity]).
  apply (value_in_width int64 t) in C4; auto. apply (value_in_width int64 t) in C5; auto.
  apply in_rep_iff in C4. apply in_rep_iff in C5. lia.
Qed.

Lemma to_cr_ok : forall t c, wf_rep t -> rsigned t = true -> wf_count t c ->
  wf_raw t (to_cr t c) /\ same_value (value (to_cr t c)) (count_value c).
Proof.
  intros t [s z|r] W S H; cbn [to_cr count_value].
  - destruct H as [H1 H2]. rewrite conv_int_id by auto. split.
    + split; cbn; auto. pose proof (rmax_big t W). pose proof (rmin_nonpos t W). apply in_rep_iff. lia.
    + apply value_int.
  - split; auto. apply same_refl.
Qed.

Lemma int_raw_ok : forall t k, wf_rep t -> in_rep t k = true -> wf_raw t (f_of_int k).
Proof.
  intros t k W I. split; cbn; auto. pose proof (rmax_big t W). pose proof (rmin_nonpos t W). apply in_rep_iff. lia.
Qed.

Lemma seconds_same : forall x y p, same_value x y -> same_value (seconds x p) (seconds y p).
Proof. intros [x|] [y|] p H; cbn in *; try contradiction; auto. now rewrite H. Qed.

Lemma mul_step : forall o t l k r, signed_rep t -> wf_raw t l -> in_rep t k = true ->
  f_arith (denote o) t t Multiplies (RR l (f_of_int k)) = Ok r ->
  wf_raw t r /\ same_value (value r) (match value l with Some q => Some (q * inject_Z k)%Q | None => None end).
Proof.
  intros o t l k r [W S] A I H. rewrite f_arith_self in H.
  pose proof (int_raw_ok t k W I) as WK.
  assert (WA : wf_args t (RR l (f_of_int k))) by (split; auto).
  split; [eapply arith_wf; eauto|].
  pose proof (denote_exact_opt o t Multiplies (RR l (f_of_int k)) r W S WA ltac:(left; discriminate) H) as X.
  cbn [left_value right_value] in X. eapply same_trans; [exact X|].
  rewrite (value_defined (f_of_int k)) by (cbn; lia). cbn [num den f_of_int].
  destruct (value l); cbn [exact_opt exact same_value]; auto. rewrite qdiv_1. reflexivity.
Qed.

Lemma div_step : forall o t l k r, signed_rep t -> wf_raw t l -> in_rep t k = true -> k <> 0 ->
  f_arith (denote o) t t Divides (RR l (f_of_int k)) = Ok r ->
  wf_raw t r /\ same_value (value r) (match value l with Some q => Some (q / inject_Z k)%Q | None => None end).
Proof.
  intros o t l k r [W S] A I N H. rewrite f_arith_self in H.
  pose proof (int_raw_ok t k W I) as WK.
  assert (WA : wf_args t (RR l (f_of_int k))) by (split; auto).
  split; [eapply arith_wf; eauto|].
  pose proof (denote_exact_opt o t Divides (RR l (f_of_int k)) r W S WA ltac:(right; right; cbn [right_value]; rewrite value_defined by (cbn; lia); discriminate) H) as X.
  cbn [left_value right_value] in X. eapply same_trans; [exact X|].
  rewrite (value_defined (f_of_int k)) by (cbn; lia). cbn [num den f_of_int].
  destruct (value l); cbn [exact_opt exact same_value]; auto.
  replace (Qeq_bool (inject_Z k / inject_Z 1) 0) with false.
  - cbn [same_value]. rewrite qdiv_1. reflexivity.
  - symmetry. apply not_true_is_false. intros E. apply Qeq_bool_iff in E. rewrite qdiv_1 in E. now apply iz_nz in E.
Qed.

Theorem duration_cast_exact : forall o t from to c r,
  signed_rep t -> wf_period from -> wf_period to -> wf_count t c -> factor_fits t from to ->
  duration_cast (denote o) t from to c = Some (Ok r) ->
  wf_raw t r /\ same_value (seconds (value r) to) (seconds (count_value c) from).
Proof.
  intros o t from to c r SR WF WT WC FF H. unfold duration_cast in H.
  destruct (ratio_divide from to) as [cf|] eqn:R; [|discriminate].
  destruct (factor_in t from to cf SR WF WT R FF) as [I1 I2].
  destruct (ratio_divide_ok from to cf WF WT R) as [[[C1 [C2 C3]] _] V].
  pose proof SR as [W S]. rewrite !conv_int_id in H by auto.
  destruct (to_cr_ok t c W S WC) as [WR VR].
  assert (Hr : forall k, 0 < k -> ~ (inject_Z k == 0)%Q) by (intros; apply iz_nz; lia).
  pose proof (Hr _ C1) as N1. pose proof (Hr _ C2) as N2. unfold period_value at 1 in V.
  apply some_inj in H.
  assert (Fin : forall x, wf_raw t r -> same_value (value r) x ->
    same_value x (match value (to_cr t c) with Some q => Some (q * inject_Z (pnum cf) / inject_Z (pden cf))%Q | None => None end) ->
    wf_raw t r /\ same_value (seconds (value r) to) (seconds (count_value c) from)).
  { intros x A B C. split; auto.
    eapply same_trans; [apply seconds_same; eapply same_trans; [exact B|exact C]|].
    eapply same_trans; [|apply seconds_same; exact VR].
    destruct (value (to_cr t c)); cbn; auto. rewrite <- V. field. auto. }
  destruct (Z.eqb_spec (pnum cf) 1) as [E1|E1], (Z.eqb_spec (pden cf) 1) as [E2|E2]; cbn [andb] in H.
  - inversion H; subst r. eapply Fin; auto; [apply same_refl|]. rewrite E1, E2.
    destruct (value (to_cr t c)); cbn [same_value]; auto. change (inject_Z 1) with 1%Q. field.
  - destruct (div_step o t _ _ r SR WR I2 ltac:(lia) H) as [A B]. eapply Fin; eauto. rewrite E1.
    destruct (value (to_cr t c)); cbn [same_value]; auto. change (inject_Z 1) with 1%Q. field; auto.
  - destruct (mul_step o t _ _ r SR WR I1 H) as [A B]. eapply Fin; eauto. rewrite E2.
    destruct (value (to_cr t c)); cbn [same_value]; auto. change (inject_Z 1) with 1%Q. field.
  - inv_bind H. rename a into x.
    destruct (mul_step o t _ _ x SR WR I1 E) as [A B].
    destruct (div_step o t _ _ r SR A I2 ltac:(lia) H) as [A' B']. eapply Fin; eauto.
    destruct (value x), (value (to_cr t c)); cbn [same_value] in *; try contradiction; auto. now rewrite B.
Qed.

Lemma to_fractional_count : forall o t pd z, signed_rep t -> wf_period pd -> in_rep t z = true ->
  to_fractional (denote o) t pd z = Some (Ok (mkRaw z 1)).
Proof.
  intros o t pd z [W S] [[A [B G]] [I1 I2]] I. unfold to_fractional, duration_cast, ratio_divide, make_ratio.
  rewrite (Z.mul_comm (pden pd) (pnum pd)). set (k := pnum pd * pden pd).
  assert (K : 0 < k) by (unfold k; nia).
  rewrite Z.gcd_diag, Z.abs_eq by lia. rewrite Z.div_same by lia.
  replace (in_rep int64 1) with true by reflexivity. cbn [andb pnum pden Z.eqb Pos.eqb to_cr].
  unfold f_of_int. now rewrite conv_int_id.
Qed.

Theorem duration_arith_exact : forall o t op pl pr l r pc x,
  signed_rep t -> wf_period pl -> wf_period pr -> wf_count t l -> wf_count t r ->
  op = Plus \/ op = Minus -> 64 <= rbits t ->
  duration_arith (denote o) t op pl pr l r = Some (pc, Ok x) ->
  same_value (seconds (value x) pc)
    (exact_opt op (seconds (count_value l) pl) (seconds (count_value r) pr)).
Proof.
  intros o t op pl pr l r pc x SR WL WR CL CR HO L H. unfold duration_arith in H.
  destruct (common_period pl pr) as [q|] eqn:P; [|discriminate].
  pose proof (common_period_ok pl pr q WL WR P) as WQ.
  destruct (duration_cast (denote o) t pl q l) as [a|] eqn:EA; [|discriminate].
  destruct (duration_cast (denote o) t pr q r) as [b|] eqn:EB; [|discriminate].
  injection H as <- H. destruct a as [a|]; [|discriminate]. destruct b as [b|]; [|discriminate].
  cbn [bind] in H.
  assert (FL : factor_fits t pl q).
  { apply factor_fits_64; auto. intros N. unfold duration_cast in EA. rewrite N in EA. discriminate. }
  assert (FR : factor_fits t pr q).
  { apply factor_fits_64; auto. intros N. unfold duration_cast in EB. rewrite N in EB. discriminate. }
  destruct (duration_cast_exact o t pl q l a SR WL WQ CL FL EA) as [A1 A2].
  destruct (duration_cast_exact o t pr q r b SR WR WQ CR FR EB) as [B1 B2].
  rewrite f_arith_self in H. pose proof SR as [W S].
  assert (WA : wf_args t (RR a b)) by (split; auto).
  assert (ND : op <> Divides) by (destruct HO; subst; discriminate).
  pose proof (denote_exact_opt o t op (RR a b) x W S WA (or_introl ND) H) as X.
  cbn [left_value right_value] in X.
  eapply same_trans; [apply seconds_same; exact X|].
  destruct (value a) as [va|], (value b) as [vb|], (count_value l) as [vl|], (count_value r) as [vr|];
    cbn [seconds same_value exact_opt] in *; try contradiction; auto.
  destruct HO; subst op; cbn [exact seconds same_value]; rewrite <- A2, <- B2; ring.
Qed.

Lemma scaled_lt : forall p x y, (0 < p)%Q -> (x < y <-> x * p < y * p)%Q.
Proof. intros p x y P. symmetry. apply Qmult_lt_r. exact P. Qed.

Theorem duration_lt_exact : forall o t pl pr l r b x y,
  signed_rep t -> wf_period pl -> wf_period pr -> wf_count t l -> wf_count t r -> 64 <= rbits t ->
  built_on_safe o = true \/ normalises_inputs o = true ->
  seconds (count_value l) pl = Some x -> seconds (count_value r) pr = Some y ->
  duration_lt (denote o) t pl pr l r = Some (Ok b) -> (b = true <-> (x < y)%Q).
Proof.
  intros o t pl pr l r b x y SR WL WR CL CR L HO X Y H. unfold duration_lt in H.
  destruct (common_period pl pr) as [q|] eqn:P; [|discriminate].
  pose proof (common_period_ok pl pr q WL WR P) as WQ.
  destruct (duration_cast (denote o) t pl q l) as [a|] eqn:EA; [|discriminate].
  destruct (duration_cast (denote o) t pr q r) as [c|] eqn:EB; [|discriminate].
  apply some_inj in H. destruct a as [a|]; [|discriminate]. destruct c as [c|]; [|discriminate].
  cbn [bind] in H.
  assert (FL : factor_fits t pl q).
  { apply factor_fits_64; auto. intros N. unfold duration_cast in EA. rewrite N in EA. discriminate. }
  assert (FR : factor_fits t pr q).
  { apply factor_fits_64; auto. intros N. unfold duration_cast in EB. rewrite N in EB. discriminate. }
  destruct (duration_cast_exact o t pl q l a SR WL WQ CL FL EA) as [A1 A2].
  destruct (duration_cast_exact o t pr q r c SR WR WQ CR FR EB) as [B1 B2].
  rewrite f_cmp_self in H. pose proof SR as [W S]. rewrite X in A2. rewrite Y in B2.
  destruct (value a) as [va|] eqn:VA; cbn in A2; [|contradiction].
  destruct (value c) as [vc|] eqn:VC; cbn in B2; [|contradiction].
  rewrite (c13_order_exact o t a c b va vc Lt W S A1 B1 HO VA VC (or_introl eq_refl) H).
  rewrite (scaled_lt (period_value q)) by now apply period_pos. rewrite A2, B2. reflexivity.
Qed.

Theorem duration_eq_exact : forall o t pl pr l r b,
  signed_rep t -> wf_period pl -> wf_period pr -> wf_count t l -> wf_count t r -> 64 <= rbits t ->
  duration_eq (denote o) t pl pr l r = Some (Ok b) ->
  (b = true <-> exists x y, seconds (count_value l) pl = Some x /\ seconds (count_value r) pr = Some y /\ (x == y)%Q).
Proof.
  intros o t pl pr l r b SR WL WR CL CR L H. unfold duration_eq in H.
  destruct (common_period pl pr) as [q|] eqn:P; [|discriminate].
  pose proof (common_period_ok pl pr q WL WR P) as WQ.
  destruct (duration_cast (denote o) t pl q l) as [a|] eqn:EA; [|discriminate].
  destruct (duration_cast (denote o) t pr q r) as [c|] eqn:EB; [|discriminate].
  apply some_inj in H. destruct a as [a|]; [|discriminate]. destruct c as [c|]; [|discriminate].
  cbn [bind] in H.
  assert (FL : factor_fits t pl q).
  { apply factor_fits_64; auto. intros N. unfold duration_cast in EA. rewrite N in EA. discriminate. }
  assert (FR : factor_fits t pr q).
  { apply factor_fits_64; auto. intros N. unfold duration_cast in EB. rewrite N in EB. discriminate. }
  destruct (duration_cast_exact o t pl q l a SR WL WQ CL FL EA) as [A1 A2].
  destruct (duration_cast_exact o t pr q r c SR WR WQ CR FR EB) as [B1 B2].
  rewrite f_cmp_self in H. pose proof SR as [W S].
  rewrite (c12_equality_exact o t (RR a c) b W S (conj A1 B1) H). cbn [left_value right_value].
  pose proof (period_pos q WQ) as PP. clear - A2 B2 PP.
  destruct (value a) as [va|], (value c) as [vc|], (count_value l) as [vl|], (count_value r) as [vr|];
    cbn [seconds same_value] in *; try contradiction;
    split; intros [x [y [X [Y E]]]]; try discriminate; inversion X; inversion Y; subst.
  - do 2 eexists. repeat split. rewrite <- A2, <- B2, E. reflexivity.
  - do 2 eexists. repeat split. rewrite <- A2, <- B2 in E. apply Qmult_inj_r in E; auto. lra.
Qed.

(** Totality of the conversion of an integer count. *)
Lemma reduce_int : forall t a m, signed_rep t -> Z.abs a <= rmax t ->
  reduce t (mkRaw a 1) m = Ok (mkRaw a 1).
Proof.
  intros t a m SR A. pose proof SR as [W S]. pose proof (one_abs t W) as O.
  assert (WR : wf_raw t (mkRaw a 1)) by (split; cbn [num den]; now apply abs_fits).
  destruct (reduce_total t (mkRaw a 1) m) as [r E]; auto. rewrite E. f_equal.
  apply reduce_spec in E as [_ [R _]]; auto.
  destruct R as [[R _]|[_ [g [G1 [G2 [G3 [_ [G4 G5]]]]]]]]; [discriminate R|]. cbn [num den] in *.
  assert (g = 1 \/ g = -1) as [->| ->] by (apply (Z.mul_eq_1 g (den r)); lia).
  - destruct r as [n d]. cbn [num den] in *. rewrite Z.mul_1_l in G2, G3. now subst.
  - exfalso. destruct m; [specialize (G4 eq_refl)|specialize (G5 eq_refl)]; lia.
Qed.

Lemma mul_ints : forall o t a b, signed_rep t -> Z.abs a <= rmax t -> Z.abs b <= rmax t -> Z.abs (a * b) <= rmax t ->
  p_arith (denote o) t Multiplies (RR (mkRaw a 1) (mkRaw b 1)) = Ok (mkRaw (a * b) 1).
Proof.
  intros o t a b SR A B AB. pose proof SR as [W S]. pose proof (one_abs t W) as O.
  induction o as [| |o IH m|o IH m]; cbn [denote].
  - cbn [p_arith safe p_multiplies_rr]. unfold safe_multiplies_rr. cbn [num den].
    rewrite !(smul _ _ _ SR) by assumption. reflexivity.
  - cbn [p_arith fast p_multiplies_rr]. unfold fast_multiplies_rr. cbn [num den].
    rewrite !(smul _ _ _ SR) by assumption. reflexivity.
  - rewrite ri_arith_eq. cbn [reduce_args]. rewrite !reduce_int by auto. exact IH.
  - rewrite ro_arith_eq, IH. cbn [bind]. now apply reduce_int.
Qed.

Lemma div_ints : forall o t a b, signed_rep t -> Z.abs a <= rmax t -> Z.abs b <= rmax t ->
  exists r, p_arith (denote o) t Divides (RR (mkRaw a 1) (mkRaw b 1)) = Ok r.
Proof.
  intros o t a b SR A B. pose proof (one_abs t (proj1 SR)) as O.
  destruct (denote_tight o t Divides (RR (mkRaw a 1) (mkRaw b 1)) SR) as [r [E _]]; [|eauto].
  unfold products_fit. cbn [lraw rraw num den]. rewrite Z.mul_1_r, Z.mul_1_l. auto.
Qed.

Theorem duration_cast_total : forall o t from to s z n d,
  signed_rep t -> wf_period from -> wf_period to -> in_rep s z = true ->
  0 < n -> 0 < d -> Z.gcd n d = 1 ->
  (inject_Z n / inject_Z d == period_value from / period_value to)%Q ->
  n <= rmax int64 -> d <= rmax int64 ->
  n <= rmax t -> d <= rmax t -> Z.abs (z * n) <= rmax t ->
  exists r, duration_cast (denote o) t from to (IntCount s z) = Some (Ok r).
Proof.
  intros o t from to s z n d SR WF WT Is N D G E N64 D64 NT DT ZN.
  pose proof SR as [W S].
  assert (R : ratio_divide from to = Some (mkPeriod n d)).
  { pose proof WF as [[F1 [F2 _]] _]. pose proof WT as [[T1 [T2 _]] _].
    unfold ratio_divide, make_ratio.
    set (x := pnum from * pden to). set (y := pden from * pnum to).
    assert (X : 0 < x) by (unfold x; nia). assert (Y : 0 < y) by (unfold y; nia).
    assert (V : (inject_Z n / inject_Z d == inject_Z x / inject_Z y)%Q).
    { rewrite E. unfold x, y, period_value. rewrite !inject_Z_mult. field. repeat split; apply iz_nz; lia. }
    assert (g0 : Z.gcd x y <> 0) by (intros g; apply Z.gcd_eq_0_l in g; lia).
    pose proof (Z.gcd_nonneg x y).
    destruct (Z.gcd_divide_l x y) as [p P]. destruct (Z.gcd_divide_r x y) as [q Q].
    assert (QA : x / Z.gcd x y = p) by (rewrite P at 1; now apply Z.div_mul).
    assert (QB : y / Z.gcd x y = q) by (rewrite Q at 1; now apply Z.div_mul).
    assert (GG : Z.gcd p q = 1) by (rewrite <- QA, <- QB; apply Z.gcd_div_gcd; auto).
    assert (EQ : mkRaw n d = mkRaw p q).
    { apply canonical_unique.
      - right. cbn. auto.
      - right. cbn. split; auto. nia.
      - rewrite !value_defined by (cbn; nia). cbn [num den same_value]. rewrite V. apply qdiv_eq; nia. }
    injection EQ as -> ->. rewrite QA, QB.
    assert (S64 : signed_rep int64) by (split; [unfold wf_rep; cbn; lia|reflexivity]).
    rewrite !(abs_fits int64) by (auto; rewrite Z.abs_eq by lia; auto). reflexivity. }
  assert (Z.abs z <= rmax t) by (rewrite Z.abs_mul, (Z.abs_eq n) in ZN by lia; nia).
  assert (Iz : in_rep t z = true) by now apply abs_fits.
  assert (In : in_rep t n = true) by (apply abs_fits; auto; lia).
  assert (Id : in_rep t d = true) by (apply abs_fits; auto; lia).
  unfold duration_cast. rewrite R. cbn [pnum pden to_cr]. rewrite !conv_int_id by auto. unfold f_of_int.
  destruct (Z.eqb_spec n 1) as [E1|E1], (Z.eqb_spec d 1) as [E2|E2]; cbn [andb]; rewrite ?f_arith_self.
  - eexists. reflexivity.
  - destruct (div_ints o t z d SR) as [r H1]; [lia|lia|]. rewrite H1. eauto.
  - rewrite mul_ints by (auto; lia). eauto.
  - rewrite mul_ints by (auto; lia). cbn [bind]. rewrite f_arith_self.
    destruct (div_ints o t (z * n) d SR) as [r H1]; [lia|lia|]. rewrite H1. eauto.
Qed.
