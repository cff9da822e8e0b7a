(** Absence of undefined behaviour for operands inside the square-root bound,
    for signed and unsigned representations. *)

From Coq Require Import ZArith QArith Qfield Bool Lia Znumtheory Zquot Setoid Morphisms.
From Verif Require Import Machine Raw Ops Spec Machine_proofs Value_proofs Ops_proofs.
Open Scope Z_scope.

(** Side conditions under which an operation has an exact result in the
    representation: a non-zero divisor for %, and for unsigned types no
    negative difference. *)
Definition z_side (t : rep) (op : arith_op) (l r : raw) : Prop :=
  (op = Modulus -> num r <> 0) /\
  (op = Minus -> rsigned t = false -> num r * den l <= num l * den r).

Definition base_total (p : policy) : Prop :=
  forall t op a B, wf_rep t -> wf_args t a -> defined_args a ->
  args_bounded B a -> 2 * B * B <= rmax t -> z_side t op (lraw a) (rraw a) ->
  exists r, p_arith p t op a = Ok r /\ zexact op (lraw a) (rraw a) r
    /\ wf_raw t r /\ raw_bounded (2 * B * B) r.

Lemma mul_bound : forall B x y, Z.abs x <= B -> Z.abs y <= B -> Z.abs (x * y) <= B * B.
Proof. intros. rewrite Z.abs_mul. nia. Qed.

Lemma wf_raw_nonneg : forall t v, wf_raw t v -> rsigned t = false -> 0 <= num v /\ 0 <= den v.
Proof.
  intros t v [H1 H2] U. apply in_rep_iff in H1, H2. rewrite (rmin_unsigned t U) in *. lia.
Qed.

Lemma in_rep_nonneg : forall t v, in_rep t v = true -> rsigned t = false -> 0 <= v.
Proof. intros t v H U. apply in_rep_iff in H. rewrite (rmin_unsigned t U) in *. lia. Qed.

Lemma exec_mul : forall t x y, wf_rep t -> Z.abs (x * y) <= rmax t ->
  (rsigned t = false -> 0 <= x * y) -> m_mul t x y = Ok (x * y).
Proof. intros. unfold m_mul. apply arith_in; auto. apply in_rep_abs; auto. Qed.
Lemma exec_add : forall t x y, wf_rep t -> Z.abs (x + y) <= rmax t ->
  (rsigned t = false -> 0 <= x + y) -> m_add t x y = Ok (x + y).
Proof. intros. unfold m_add. apply arith_in; auto. apply in_rep_abs; auto. Qed.
Lemma exec_sub : forall t x y, wf_rep t -> Z.abs (x - y) <= rmax t ->
  (rsigned t = false -> 0 <= x - y) -> m_sub t x y = Ok (x - y).
Proof. intros. unfold m_sub. apply arith_in; auto. apply in_rep_abs; auto. Qed.
Lemma exec_rem : forall t x y, wf_rep t -> y <> 0 -> Z.abs x <= rmax t ->
  (rsigned t = false -> 0 <= x /\ 0 <= y) -> m_rem t x y = Ok (Z.rem x y).
Proof.
  intros. apply m_rem_in; auto. apply in_rep_abs; auto.
  - pose proof (abs_quot_le x y H0). lia.
  - intros U. specialize (H2 U). apply quot_nonneg; lia.
Qed.
Lemma exec_lcm : forall t x y, wf_rep t -> Z.abs x <= rmax t -> Z.abs y <= rmax t ->
  Z.lcm x y <= rmax t -> std_lcm t x y = Ok (Z.lcm x y).
Proof.
  intros. unfold std_lcm. rewrite !(proj2 (abs_in_rep_iff t _ H)) by auto.
  pose proof (Z.lcm_nonneg x y). rewrite in_rep_abs by (auto; lia). reflexivity.
Qed.

(** Execution of the three lcm-based functions of [safe]. *)
Lemma exec_safe_common : forall t l r B, wf_rep t -> wf_raw t l -> wf_raw t r ->
  raw_bounded B l -> raw_bounded B r -> 2 * B * B <= rmax t ->
  den l <> 0 -> den r <> 0 ->
  exists k1 k2, let m := Z.lcm (den l) (den r) in
  std_lcm t (den l) (den r) = Ok m
  /\ m_div t m (den l) = Ok k1 /\ m_mul t k1 (num l) = Ok (k1 * num l)
  /\ m_div t m (den r) = Ok k2 /\ m_mul t k2 (num r) = Ok (k2 * num r)
  /\ m = den l * k1 /\ m = den r * k2 /\ 0 < m /\ k1 <> 0 /\ k2 <> 0
  /\ Z.abs (k1 * num l) <= B * B /\ Z.abs (k2 * num r) <= B * B /\ m <= B * B
  /\ in_rep t m = true
  /\ (rsigned t = false -> 0 < k1 /\ 0 < k2 /\ 0 <= k1 * num l /\ 0 <= k2 * num r).
Proof.
  intros t l r B W Wl Wr [Bl1 Bl2] [Br1 Br2] HB Dl Dr.
  destruct (lcm_parts _ _ Dl Dr) as [k1 [k2 [K1 [K2 [Q1 [Q2 [P [N1 [N2 [A1 [A2 A3]]]]]]]]]]].
  exists k1, k2. intros m. fold m in K1, K2, Q1, Q2, P, A3.
  assert (B1 : 1 <= B) by lia.
  assert (HBB : B <= B * B) by nia.
  assert (Mm : m <= B * B).
  { eapply Z.le_trans; [exact A3|]. apply Z.mul_le_mono_nonneg; lia. }
  assert (M1 : Z.abs (k1 * num l) <= B * B) by (apply mul_bound; lia).
  assert (M2 : Z.abs (k2 * num r) <= B * B) by (apply mul_bound; lia).
  assert (U : rsigned t = false -> 0 < k1 /\ 0 < k2 /\ 0 <= k1 * num l /\ 0 <= k2 * num r).
  { intro S. pose proof (wf_raw_nonneg t l Wl S). pose proof (wf_raw_nonneg t r Wr S).
    assert (0 < k1) by nia. assert (0 < k2) by nia. nia. }
  repeat split; auto.
  - apply exec_lcm; auto; fold m; lia.
  - rewrite <- Q1. apply m_div_in; auto. rewrite Q1. apply in_rep_abs; auto; [lia|].
    intros S; specialize (U S); lia.
  - apply exec_mul; auto; try lia. intros S; specialize (U S); lia.
  - rewrite <- Q2. apply m_div_in; auto. rewrite Q2. apply in_rep_abs; auto; [lia|].
    intros S; specialize (U S); lia.
  - apply exec_mul; auto; try lia. intros S; specialize (U S); lia.
  - apply in_rep_abs; auto; lia.
  - apply U; auto.
  - apply U; auto.
  - apply U; auto.
  - apply U; auto.
Qed.

Lemma den_pos_unsigned : forall t v, wf_raw t v -> den v <> 0 -> rsigned t = false -> 0 < den v /\ 0 <= num v.
Proof. intros t v W D S. pose proof (wf_raw_nonneg t v W S). lia. Qed.

Lemma z_mod_ri : forall n d z, Z.rem n (d * z) * (d * 1) = Z.rem (n * 1) (z * d) * d.
Proof. intros. rewrite !Z.mul_1_r, (Z.mul_comm z). reflexivity. Qed.
Lemma z_mod_ri' : forall n d z, Z.rem n (z * d) * (d * 1) = Z.rem (n * 1) (z * d) * d.
Proof. intros. rewrite !Z.mul_1_r. reflexivity. Qed.
Lemma z_mod_ir : forall n d z, Z.rem (d * z) n * (1 * d) = Z.rem (z * d) (n * 1) * d.
Proof. intros. rewrite !Z.mul_1_r, Z.mul_1_l, (Z.mul_comm z). reflexivity. Qed.
Lemma z_mod_ir' : forall n d z, Z.rem (z * d) n * (1 * d) = Z.rem (z * d) (n * 1) * d.
Proof. intros. rewrite !Z.mul_1_r, Z.mul_1_l. reflexivity. Qed.

Ltac zx :=
  repeat match goal with
  | |- _ /\ _ => split
  | |- _ <> 0 -> _ => intro
  | |- _ = 0 -> _ => intro
  | |- _ <> 0 => first [assumption | nia]
  | |- _ * 0 = 0 => ring
  | |- _ => first [ring | apply z_mod_ri | apply z_mod_ri' | apply z_mod_ir | apply z_mod_ir' | nia]
  end.

(** The overloads with an integer operand are the same for [safe] and [fast]
    up to the order of factors. *)
Lemma ri_shapes_total : forall p, (p = safe \/ p = fast) ->
  forall t op l z B, wf_rep t -> wf_raw t l -> in_rep t z = true ->
  den l <> 0 -> raw_bounded B l -> Z.abs z <= B -> 2 * B * B <= rmax t ->
  z_side t op l (mkRaw z 1) ->
  exists r, p_arith p t op (RI l z) = Ok r /\ wf_raw t r /\ raw_bounded (2 * B * B) r /\ zexact op l (mkRaw z 1) r.
Proof.
  intros p Hp t op l z B W Wl Wz D [B1 B2] B3 HB [S1 S2]. cbn [num den] in *.
  assert (HB1 : 1 <= B) by lia. assert (HBB : B <= B * B) by nia.
  remember (2 * B * B) as BB eqn:HBBe.
  assert (M1 : Z.abs (z * den l) <= B * B) by (apply mul_bound; lia).
  assert (M1' : Z.abs (den l * z) <= B * B) by (apply mul_bound; lia).
  assert (M2 : Z.abs (num l * z) <= B * B) by (apply mul_bound; lia).
  assert (U : rsigned t = false -> 0 < den l /\ 0 <= num l /\ 0 <= z
             /\ 0 <= z * den l /\ 0 <= den l * z /\ 0 <= num l * z).
  { intros S. pose proof (den_pos_unsigned t l Wl D S). pose proof (in_rep_nonneg t z Wz S).
    nia. }
  assert (Hw : policy_wf p) by (destruct Hp; subst; [apply safe_wf|apply fast_wf]).
  enough (exists r, p_arith p t op (RI l z) = Ok r /\ raw_bounded BB r /\ zexact op l (mkRaw z 1) r) as [r [H1 [H2 H3]]].
  { exists r. repeat split; auto; try apply H2; try apply H3; eapply (proj1 Hw); eauto; cbn; auto. }
  assert (Um : rsigned t = false -> 0 <= z * den l) by (intros S; apply U; auto).
  assert (Um' : rsigned t = false -> 0 <= den l * z) by (intros S; apply U; auto).
  assert (Un : rsigned t = false -> 0 <= num l * z) by (intros S; apply U; auto).
  destruct op.
  - exists (mkRaw (num l + z * den l) (den l)). split.
    + destruct Hp as [-> | ->]; cbn; unfold safe_plus_ri, fast_plus_ri;
      (rewrite exec_mul by (auto; lia); cbn [bind];
       rewrite exec_add by (auto; try lia; intros S; specialize (U S); lia); reflexivity).
    + split; [split; cbn [num den]; lia|]. cbn [zexact num den]. zx.
  - exists (mkRaw (num l - z * den l) (den l)). split.
    + destruct Hp as [-> | ->]; cbn; unfold safe_minus_ri, fast_minus_ri;
      (rewrite exec_mul by (auto; lia); cbn [bind];
       rewrite exec_sub by (auto; try lia; intros S; specialize (U S); specialize (S2 eq_refl S); lia); reflexivity).
    + split; [split; cbn [num den]; lia|]. cbn [zexact num den]. zx.
  - exists (mkRaw (num l * z) (den l)). split.
    + destruct Hp as [-> | ->]; cbn; unfold safe_multiplies_ri, fast_multiplies_ri;
      (rewrite exec_mul by (auto; lia); reflexivity).
    + split; [split; cbn [num den]; lia|]. cbn [zexact num den]. zx.
  - exists (mkRaw (num l) (den l * z)). split.
    + destruct Hp as [-> | ->]; cbn; unfold safe_divides_ri, fast_divides_ri;
      (rewrite exec_mul by (auto; lia); reflexivity).
    + split; [split; cbn [num den]; lia|]. cbn [zexact num den]. zx.
  - specialize (S1 eq_refl).
    destruct Hp as [-> | ->]; cbn; unfold safe_modulus_ri, fast_modulus_ri.
    + exists (mkRaw (Z.rem (num l) (den l * z)) (den l)). split.
      * rewrite exec_mul by (auto; lia). cbn [bind].
        rewrite exec_rem; auto; try lia; try nia; intros S; specialize (U S); lia.
      * pose proof (abs_rem_le (num l) (den l * z)). split; [split; cbn [num den]; lia|]. cbn [zexact num den]. zx.
    + exists (mkRaw (Z.rem (num l) (z * den l)) (den l)). split.
      * rewrite exec_mul by (auto; lia). cbn [bind].
        rewrite exec_rem; auto; try lia; try nia; intros S; specialize (U S); lia.
      * pose proof (abs_rem_le (num l) (z * den l)). split; [split; cbn [num den]; lia|]. cbn [zexact num den]. zx.
Qed.

Lemma ir_shapes_total : forall p, (p = safe \/ p = fast) ->
  forall t op l z B, wf_rep t -> wf_raw t l -> in_rep t z = true ->
  den l <> 0 -> raw_bounded B l -> Z.abs z <= B -> 2 * B * B <= rmax t ->
  z_side t op (mkRaw z 1) l ->
  exists r, p_arith p t op (IR z l) = Ok r /\ wf_raw t r /\ raw_bounded (2 * B * B) r /\ zexact op (mkRaw z 1) l r.
Proof.
  intros p Hp t op l z B W Wl Wz D [B1 B2] B3 HB [S1 S2]. cbn [num den] in *.
  assert (HB1 : 1 <= B) by lia. assert (HBB : B <= B * B) by nia.
  remember (2 * B * B) as BB eqn:HBBe.
  assert (M1 : Z.abs (z * den l) <= B * B) by (apply mul_bound; lia).
  assert (M1' : Z.abs (den l * z) <= B * B) by (apply mul_bound; lia).
  assert (M2 : Z.abs (num l * z) <= B * B) by (apply mul_bound; lia).
  assert (U : rsigned t = false -> 0 < den l /\ 0 <= num l /\ 0 <= z
             /\ 0 <= z * den l /\ 0 <= den l * z /\ 0 <= num l * z).
  { intros S. pose proof (den_pos_unsigned t l Wl D S). pose proof (in_rep_nonneg t z Wz S).
    nia. }
  assert (Hw : policy_wf p) by (destruct Hp; subst; [apply safe_wf|apply fast_wf]).
  enough (exists r, p_arith p t op (IR z l) = Ok r /\ raw_bounded BB r /\ zexact op (mkRaw z 1) l r) as [r [H1 [H2 H3]]].
  { exists r. repeat split; auto; try apply H2; try apply H3; eapply (proj1 Hw); eauto; cbn; auto. }
  assert (Um : rsigned t = false -> 0 <= z * den l) by (intros S; apply U; auto).
  assert (Um' : rsigned t = false -> 0 <= den l * z) by (intros S; apply U; auto).
  assert (Un : rsigned t = false -> 0 <= num l * z) by (intros S; apply U; auto).
  destruct op.
  - exists (mkRaw (num l + z * den l) (den l)). split.
    + destruct Hp as [-> | ->]; cbn; unfold safe_plus_ir, fast_plus_ir, safe_plus_ri, fast_plus_ri;
      (rewrite exec_mul by (auto; lia); cbn [bind];
       rewrite exec_add by (auto; try lia; intros S; specialize (U S); lia); reflexivity).
    + split; [split; cbn [num den]; lia|]. cbn [zexact num den]. zx.
  - exists (mkRaw (z * den l - num l) (den l)). split.
    + destruct Hp as [-> | ->]; cbn; unfold safe_minus_ir, fast_minus_ir;
      (rewrite exec_mul by (auto; lia); cbn [bind];
       rewrite exec_sub by (auto; try lia; intros S; specialize (U S); specialize (S2 eq_refl S); lia); reflexivity).
    + split; [split; cbn [num den]; lia|]. cbn [zexact num den]. zx.
  - exists (mkRaw (num l * z) (den l)). split.
    + destruct Hp as [-> | ->]; cbn; unfold safe_multiplies_ir, fast_multiplies_ir, safe_multiplies_ri, fast_multiplies_ri;
      (rewrite exec_mul by (auto; lia); reflexivity).
    + split; [split; cbn [num den]; lia|]. cbn [zexact num den]. zx.
  - exists (mkRaw (z * den l) (num l)). split.
    + destruct Hp as [-> | ->]; cbn; unfold safe_divides_ir, fast_divides_ir;
      (rewrite exec_mul by (auto; lia); reflexivity).
    + split; [split; cbn [num den]; lia|]. cbn [zexact num den]. zx.
  - specialize (S1 eq_refl).
    destruct Hp as [-> | ->]; cbn; unfold safe_modulus_ir, fast_modulus_ir.
    + exists (mkRaw (Z.rem (den l * z) (num l)) (den l)). split.
      * rewrite exec_mul by (auto; lia). cbn [bind].
        rewrite exec_rem; auto; try lia; intros S; specialize (U S); lia.
      * pose proof (abs_rem_le (den l * z) (num l)). split; [split; cbn [num den]; lia|]. cbn [zexact num den]. zx.
    + exists (mkRaw (Z.rem (z * den l) (num l)) (den l)). split.
      * rewrite exec_mul by (auto; lia). cbn [bind].
        rewrite exec_rem; auto; try lia; intros S; specialize (U S); lia.
      * pose proof (abs_rem_le (z * den l) (num l)). split; [split; cbn [num den]; lia|]. cbn [zexact num den]. zx.
Qed.

(** Bounds by transitivity, avoiding case splits on every absolute value. *)
Lemma abs_le_a : forall x B BB, Z.abs x <= B * B -> BB = 2 * B * B -> 1 <= B -> Z.abs x <= BB.
Proof. intros. nia. Qed.
Lemma abs_le_b : forall x B BB M, Z.abs x <= B * B -> BB = 2 * B * B -> 1 <= B ->
  BB <= M -> Z.abs x <= M.
Proof. intros. nia. Qed.
Lemma abs_add_a : forall x y B BB, Z.abs x <= B * B -> Z.abs y <= B * B -> BB = 2 * B * B ->
  Z.abs (x + y) <= BB.
Proof. intros. lia. Qed.
Lemma abs_add_b : forall x y B BB M, Z.abs x <= B * B -> Z.abs y <= B * B -> BB = 2 * B * B ->
  BB <= M -> Z.abs (x + y) <= M.
Proof. intros. lia. Qed.
Lemma abs_sub_a : forall x y B BB, Z.abs x <= B * B -> Z.abs y <= B * B -> BB = 2 * B * B ->
  Z.abs (x - y) <= BB.
Proof. intros. lia. Qed.
Lemma abs_sub_b : forall x y B BB M, Z.abs x <= B * B -> Z.abs y <= B * B -> BB = 2 * B * B ->
  BB <= M -> Z.abs (x - y) <= M.
Proof. intros. lia. Qed.
Ltac fastb :=
  solve
  [ eapply abs_add_a; eassumption | eapply abs_add_b; eassumption
  | eapply abs_sub_a; eassumption | eapply abs_sub_b; eassumption
  | eapply abs_le_a; eassumption | eapply abs_le_b; eassumption
  | match goal with H : Z.abs (Z.rem ?x ?y) <= Z.abs ?x |- Z.abs (Z.rem ?x ?y) <= _ =>
      eapply Z.le_trans; [exact H|]; eapply abs_le_a; eassumption end
  | match goal with P : 0 < ?m, A : ?m <= ?B * ?B, H : ?BB = 2 * ?B * ?B |- Z.abs ?m <= ?BB =>
      clear - P A H; lia end
  | assumption ].

Lemma safe_rr_total : forall t op l r B, wf_rep t -> wf_raw t l -> wf_raw t r ->
  den l <> 0 -> den r <> 0 -> raw_bounded B l -> raw_bounded B r ->
  2 * B * B <= rmax t -> z_side t op l r ->
  exists s, p_arith safe t op (RR l r) = Ok s
    /\ raw_bounded (2 * B * B) s /\ zexact op l r s.
Proof.
  intros t op l r B W Wl Wr Dl Dr Bl Br HB [S1 S2].
  destruct (exec_safe_common t l r B W Wl Wr Bl Br HB Dl Dr) as
    [k1 [k2 [X1 [X2 [X3 [X4 [X5 [K1 [K2 [P [N1 [N2 [A1 [A2 [A3 [Im U]]]]]]]]]]]]]]]].
  destruct Bl as [Bl1 Bl2], Br as [Br1 Br2].
  assert (HB1 : 1 <= B) by lia. assert (HBB : B <= B * B) by nia.
  remember (2 * B * B) as BB eqn:HBBe.
  set (m := Z.lcm (den l) (den r)) in *. clearbody m.
  assert (M1 : Z.abs (num l * num r) <= B * B) by (apply mul_bound; lia).
  assert (M2 : Z.abs (den l * den r) <= B * B) by (apply mul_bound; lia).
  assert (M3 : Z.abs (num l * den r) <= B * B) by (apply mul_bound; lia).
  assert (M4 : Z.abs (den l * num r) <= B * B) by (apply mul_bound; lia).
  assert (V : rsigned t = false -> 0 <= num l /\ 0 < den l /\ 0 <= num r /\ 0 < den r).
  { intros S. pose proof (den_pos_unsigned t l Wl Dl S). pose proof (den_pos_unsigned t r Wr Dr S). lia. }
  assert (V1 : rsigned t = false -> 0 <= num l * den r) by (clear - V; intros S; specialize (V S); nia).
  assert (V2 : rsigned t = false -> 0 <= num r * den l) by (clear - V; intros S; specialize (V S); nia).
  assert (V3 : rsigned t = false -> 0 <= den l * den r) by (clear - V; intros S; specialize (V S); nia).
  assert (V4 : rsigned t = false -> 0 <= num l * num r) by (clear - V; intros S; specialize (V S); nia).
  assert (V5 : rsigned t = false -> 0 <= den l * num r) by (clear - V; intros S; specialize (V S); nia).
  destruct op; cbn.
  - exists (mkRaw (k1 * num l + k2 * num r) m). split; [|split; [split; cbn [num den]; fastb|]].
    + unfold safe_plus_rr. rewrite X1; cbn [bind]. rewrite X2; cbn [bind]. rewrite X3; cbn [bind].
      rewrite X4; cbn [bind]. rewrite X5; cbn [bind].
      rewrite exec_add; auto; try fastb. intros S; specialize (U S); clear - U; lia.
    + cbn [num den]. split; [clear - P; lia|]. rewrite Z.mul_add_distr_r, Z.mul_add_distr_r. f_equal.
      * rewrite K1. ring.
      * rewrite K2. ring.
  - exists (mkRaw (k1 * num l - k2 * num r) m). split; [|split; [split; cbn [num den]; fastb|]].
    + unfold safe_minus_rr. rewrite X1; cbn [bind]. rewrite X2; cbn [bind]. rewrite X3; cbn [bind].
      rewrite X4; cbn [bind]. rewrite X5; cbn [bind].
      rewrite exec_sub; auto; try fastb. intros S; specialize (U S); specialize (S2 eq_refl S);
      specialize (V S).
      assert (0 <= (k1 * num l - k2 * num r) * (den l * den r)).
      { replace ((k1 * num l - k2 * num r) * (den l * den r))
          with ((num l * den r) * (den l * k1) - (num r * den l) * (den r * k2)) by ring.
        rewrite <- K1, <- K2. clear - S2 P. nia. }
      apply Z.mul_nonneg_cancel_r in H; [exact H|]. clear - V. nia.
    + cbn [num den]. split; [clear - P; lia|]. rewrite Z.mul_sub_distr_r, Z.mul_sub_distr_r. f_equal.
      * rewrite K1. ring.
      * rewrite K2. ring.
  - exists (mkRaw (num l * num r) (den l * den r)). split; [|split; [split; cbn [num den]; fastb|]].
    + unfold safe_multiplies_rr. rewrite exec_mul; auto; try fastb.
      cbn [bind]. rewrite exec_mul; auto; try fastb.
    + cbn [num den]. clear - Dl Dr S1. zx.
  - exists (mkRaw (num l * den r) (den l * num r)). split; [|split; [split; cbn [num den]; fastb|]].
    + unfold safe_divides_rr. rewrite exec_mul; auto; try fastb.
      cbn [bind]. rewrite exec_mul; auto; try fastb.
    + cbn [num den]. clear - Dl Dr S1. zx.
  - specialize (S1 eq_refl).
    exists (mkRaw (Z.rem (k1 * num l) (k2 * num r)) m). split; [|split; [split; cbn [num den]|]].
    + unfold safe_modulus_rr. rewrite X1; cbn [bind]. rewrite X2; cbn [bind]. rewrite X3; cbn [bind].
      rewrite X4; cbn [bind]. rewrite X5; cbn [bind].
      rewrite exec_rem; auto; try fastb; [clear - N2 S1; nia|]. intros S; specialize (U S); clear - U; lia.
    + pose proof (abs_rem_le (k1 * num l) (k2 * num r)). fastb.
    + fastb.
    + cbn [num den]. split; [auto|]. split; [clear - P; lia|]. apply z_safe_mod; auto. clear - P; lia.
Qed.

Lemma fast_rr_total : forall t op l r B, wf_rep t -> wf_raw t l -> wf_raw t r ->
  den l <> 0 -> den r <> 0 -> raw_bounded B l -> raw_bounded B r ->
  2 * B * B <= rmax t -> z_side t op l r ->
  exists s, p_arith fast t op (RR l r) = Ok s
    /\ raw_bounded (2 * B * B) s /\ zexact op l r s.
Proof.
  intros t op l r B W Wl Wr Dl Dr [Bl1 Bl2] [Br1 Br2] HB [S1 S2].
  assert (HB1 : 1 <= B) by lia. assert (HBB : B <= B * B) by nia.
  remember (2 * B * B) as BB eqn:HBBe.
  assert (M1 : Z.abs (num l * num r) <= B * B) by (apply mul_bound; lia).
  assert (M2 : Z.abs (den l * den r) <= B * B) by (apply mul_bound; lia).
  assert (M3 : Z.abs (num l * den r) <= B * B) by (apply mul_bound; lia).
  assert (M4 : Z.abs (den l * num r) <= B * B) by (apply mul_bound; lia).
  assert (M5 : Z.abs (num r * den l) <= B * B) by (apply mul_bound; lia).
  assert (V : rsigned t = false -> 0 <= num l /\ 0 < den l /\ 0 <= num r /\ 0 < den r).
  { intros S. pose proof (den_pos_unsigned t l Wl Dl S). pose proof (den_pos_unsigned t r Wr Dr S). lia. }
  assert (V1 : rsigned t = false -> 0 <= num l * den r) by (clear - V; intros S; specialize (V S); nia).
  assert (V2 : rsigned t = false -> 0 <= num r * den l) by (clear - V; intros S; specialize (V S); nia).
  assert (V3 : rsigned t = false -> 0 <= den l * den r) by (clear - V; intros S; specialize (V S); nia).
  assert (V4 : rsigned t = false -> 0 <= num l * num r) by (clear - V; intros S; specialize (V S); nia).
  assert (V5 : rsigned t = false -> 0 <= den l * num r) by (clear - V; intros S; specialize (V S); nia).
  destruct op; cbn.
  - exists (mkRaw (num l * den r + num r * den l) (den l * den r)).
    split; [|split; [split; cbn [num den]; fastb|]].
    + unfold fast_plus_rr. do 2 (rewrite exec_mul; auto; try fastb; cbn [bind]).
      rewrite exec_add; auto; try fastb; [cbn [bind]|intros S; specialize (V1 S); specialize (V2 S); clear - V1 V2; lia].
      rewrite exec_mul; auto; try fastb.
    + cbn [num den]. clear - Dl Dr S1. zx.
  - exists (mkRaw (num l * den r - num r * den l) (den l * den r)).
    split; [|split; [split; cbn [num den]; fastb|]].
    + unfold fast_minus_rr. do 2 (rewrite exec_mul; auto; try fastb; cbn [bind]).
      rewrite exec_sub; auto; try fastb; cbn [bind].
      * rewrite exec_mul; auto; try fastb.
      * intros S; specialize (S2 eq_refl S). lia.
    + cbn [num den]. clear - Dl Dr S1. zx.
  - exists (mkRaw (num l * num r) (den l * den r)). split; [|split; [split; cbn [num den]; fastb|]].
    + unfold fast_multiplies_rr. do 2 (rewrite exec_mul; auto; try fastb; cbn [bind]). 
    + cbn [num den]. clear - Dl Dr S1. zx.
  - exists (mkRaw (num l * den r) (den l * num r)). split; [|split; [split; cbn [num den]; fastb|]].
    + unfold fast_divides_rr. do 2 (rewrite exec_mul; auto; try fastb; cbn [bind]).
    + cbn [num den]. clear - Dl Dr S1. zx.
  - specialize (S1 eq_refl).
    exists (mkRaw (Z.rem (num l * den r) (num r * den l)) (den l * den r)).
    split; [|split; [split; cbn [num den]|]].
    + unfold fast_modulus_rr. do 2 (rewrite exec_mul; auto; try fastb; cbn [bind]).
      rewrite exec_rem; auto; try fastb; [|clear - Dl S1; nia]; cbn [bind]. rewrite exec_mul; auto; fastb.
    + pose proof (abs_rem_le (num l * den r) (num r * den l)). fastb.
    + fastb.
    + cbn [num den]. clear - Dl Dr S1. zx.
Qed.

Lemma safe_total : base_total safe.
Proof.
  intros t op a B W A D HA HB S. apply defined_args_raw in D as [Dl Dr].
  destruct a as [l r|l z|z l]; cbn [lraw rraw] in *; destruct A as [A1 A2], HA as [HA1 HA2].
  - destruct (safe_rr_total t op l r B) as [s [E1 [E2 E3]]]; auto.
    exists s. repeat split; auto; try apply E2; eapply (proj1 safe_wf); eauto; cbn; auto.
  - destruct (ri_shapes_total safe (or_introl eq_refl) t op l z B) as [s [E1 [E2 [E3 E4]]]]; auto.
    exists s; auto.
  - destruct (ir_shapes_total safe (or_introl eq_refl) t op l z B) as [s [E1 [E2 [E3 E4]]]]; auto.
    exists s; auto.
Qed.

Lemma fast_total : base_total fast.
Proof.
  intros t op a B W A D HA HB S. apply defined_args_raw in D as [Dl Dr].
  destruct a as [l r|l z|z l]; cbn [lraw rraw] in *; destruct A as [A1 A2], HA as [HA1 HA2].
  - destruct (fast_rr_total t op l r B) as [s [E1 [E2 E3]]]; auto.
    exists s. repeat split; auto; try apply E2; eapply (proj1 fast_wf); eauto; cbn; auto.
  - destruct (ri_shapes_total fast (or_intror eq_refl) t op l z B) as [s [E1 [E2 [E3 E4]]]]; auto.
    exists s; auto.
  - destruct (ir_shapes_total fast (or_intror eq_refl) t op l z B) as [s [E1 [E2 [E3 E4]]]]; auto.
    exists s; auto.
Qed.

Lemma value_side_proper : forall t op x x' y y',
  same_value x x' -> same_value y y' -> value_side t op x y -> value_side t op x' y'.
Proof.
  intros t op [x|] [x'|] [y|] [y'|] Hx Hy; cbn [same_value value_side] in *; try tauto.
  rewrite Hx, Hy. auto.
Qed.

Lemma z_side_value : forall t op a, wf_rep t -> wf_args t a -> defined_args a ->
  value_side t op (left_value a) (right_value a) -> z_side t op (lraw a) (rraw a).
Proof.
  intros t op a W A D H. apply defined_args_raw in D as [Dl Dr].
  apply (value_side_proper t op _ _ _ _ (left_value_raw a) (right_value_raw a)) in H.
  rewrite (value_defined _ Dl), (value_defined _ Dr) in H. cbn [value_side] in H.
  destruct H as [H1 H2]. split.
  - intros E Z. apply (H1 E). rewrite Z. unfold Qdiv, Qmult, Qeq; cbn; lia.
  - intros E U. specialize (H2 E U). rewrite qdiv_le in H2 by auto.
    assert (0 < den (lraw a) /\ 0 < den (rraw a)).
    { destruct a as [l r|l z|z l]; cbn [lraw rraw den] in *; destruct A as [A1 A2].
      - pose proof (den_pos_unsigned t l A1 Dl U). pose proof (den_pos_unsigned t r A2 Dr U). lia.
      - pose proof (den_pos_unsigned t l A1 Dl U). lia.
      - pose proof (den_pos_unsigned t l A2 Dr U). lia. }
    apply Z.mul_le_mono_pos_r in H2; [exact H2|]. clear - H. nia.
Qed.

Lemma reduce_args_total : forall t a m B, wf_rep t -> wf_args t a -> args_bounded B a ->
  B <= rmax t -> exists b, reduce_args t a m = Ok b /\ args_bounded B b.
Proof.
  intros t a m B W A HA HB. destruct a as [l r|l z|z l]; cbn in A, HA; destruct A as [A1 A2], HA as [HA1 HA2]; cbn [reduce_args].
  - destruct HA1, HA2.
    destruct (reduce_total t l m) as [l' E1]; auto; try lia.
    destruct (reduce_total t r m) as [r' E2]; auto; try lia.
    rewrite E1, E2. exists (RR l' r'). split; auto.
    apply reduce_spec in E1 as [_ [R1 _]]; auto. apply reduce_spec in E2 as [_ [R2 _]]; auto.
    apply reduces_bound in R1, R2. cbn. unfold raw_bounded. lia.
  - destruct HA1.
    destruct (reduce_total t l m) as [l' E1]; auto; try lia.
    rewrite E1. exists (RI l' z). split; auto.
    apply reduce_spec in E1 as [_ [R1 _]]; auto.
    apply reduces_bound in R1. cbn. unfold raw_bounded. lia.
  - destruct HA2.
    destruct (reduce_total t l m) as [l' E1]; auto; try lia.
    rewrite E1. exists (IR z l'). split; auto.
    apply reduce_spec in E1 as [_ [R1 _]]; auto.
    apply reduces_bound in R1. cbn. unfold raw_bounded. lia.
Qed.

Lemma args_bound_pos : forall B a, defined_args a -> args_bounded B a -> 1 <= B.
Proof.
  intros B a D H. apply defined_args_raw in D as [Dl Dr].
  destruct a; cbn in *; unfold raw_bounded in *; lia.
Qed.

Theorem denote_total : forall o t op a B,
  wf_rep t -> wf_args t a -> defined_args a -> args_bounded B a ->
  2 * B * B <= rmax t -> value_side t op (left_value a) (right_value a) ->
  exists r, p_arith (denote o) t op a = Ok r /\ wf_raw t r /\ raw_bounded (2 * B * B) r
    /\ same_value (value r) (exact_opt op (left_value a) (right_value a)).
Proof.
  induction o as [| |o IH m|o IH m]; intros t op a B W A D HA HB S; cbn [denote].
  - destruct (safe_total t op a B) as [r [E1 [E2 [E3 E4]]]]; auto using z_side_value.
    exists r. repeat split; auto; try apply E3; try apply E4. now apply zexact_args.
  - destruct (fast_total t op a B) as [r [E1 [E2 [E3 E4]]]]; auto using z_side_value.
    exists r. repeat split; auto; try apply E3; try apply E4. now apply zexact_args.
  - pose proof (args_bound_pos B a D HA).
    destruct (reduce_args_total t a m B) as [b [E1 E2]]; auto; [nia|].
    rewrite ri_arith_eq, E1. cbn [bind].
    apply reduce_args_spec in E1 as [Wb R]; auto.
    destruct (IH t op b B) as [r [F1 [F2 [F3 F4]]]]; auto.
    + now rewrite (args_reduce_defined _ _ _ R).
    + eapply value_side_proper; [| |exact S]; symmetry.
      * now apply (args_reduce_left m).
      * now apply (args_reduce_right m).
    + exists r. repeat split; auto; try apply F2; try apply F3.
      rewrite F4, (args_reduce_left _ _ _ R), (args_reduce_right _ _ _ R). reflexivity.
  - destruct (IH t op a B) as [r [F1 [F2 [F3 F4]]]]; auto.
    rewrite ro_arith_eq, F1. cbn [bind]. destruct F3 as [F3 F3'].
    destruct (reduce_total t r m) as [s E]; auto; try lia.
    exists s. split; auto. apply reduce_spec in E as [Ws [R _]]; auto.
    split; auto. split.
    + apply reduces_bound in R. split; lia.
    + rewrite (reduces_same_value _ _ _ R). exact F4.
Qed.
