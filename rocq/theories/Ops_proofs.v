(** Exactness of the arithmetic of every policy. *)

From Coq Require Import ZArith QArith Qfield Bool Lia Znumtheory Zquot Setoid Morphisms.
From Verif Require Import Machine Raw Ops Spec Machine_proofs Value_proofs.
Open Scope Z_scope.

(** Operands as two raw fractions (an integer z is z/1). *)
Definition lraw (a : args) : raw :=
  match a with RR l _ => l | RI l _ => l | IR z _ => mkRaw z 1 end.
Definition rraw (a : args) : raw :=
  match a with RR _ r => r | RI _ z => mkRaw z 1 | IR _ r => r end.

Lemma value_int : forall z, same_value (value (mkRaw z 1)) (Some (inject_Z z)).
Proof. intros. rewrite value_defined by (cbn; lia). apply qdiv_1. Qed.

Lemma left_value_raw : forall a, same_value (left_value a) (value (lraw a)).
Proof. intros []; cbn [left_value lraw]; try reflexivity. symmetry; apply value_int. Qed.
Lemma right_value_raw : forall a, same_value (right_value a) (value (rraw a)).
Proof. intros []; cbn [right_value rraw]; try reflexivity. symmetry; apply value_int. Qed.

Lemma defined_args_raw : forall a, defined_args a <-> den (lraw a) <> 0 /\ den (rraw a) <> 0.
Proof.
  intros a. unfold defined_args. destruct a; cbn [left_value right_value lraw rraw];
    rewrite ?value_none_iff; cbn; intuition (try discriminate; try lia).
Qed.

(** The integer equations that characterise an exact result. *)
Definition zexact (op : arith_op) (l r res : raw) : Prop :=
  match op with
  | Plus => den res <> 0 /\
      num res * (den l * den r) = (num l * den r + num r * den l) * den res
  | Minus => den res <> 0 /\
      num res * (den l * den r) = (num l * den r - num r * den l) * den res
  | Multiplies => den res <> 0 /\
      num res * (den l * den r) = (num l * num r) * den res
  | Divides =>
      (num r = 0 -> den res = 0) /\
      (num r <> 0 -> den res <> 0 /\
         num res * (den l * num r) = (num l * den r) * den res)
  | Modulus => num r <> 0 /\ den res <> 0 /\
      num res * (den l * den r) = Z.rem (num l * den r) (num r * den l) * den res
  end.

Lemma qdiv_zero : forall a b, b <> 0 ->
  Qeq_bool (inject_Z a / inject_Z b) 0 = (a =? 0).
Proof.
  intros a b Hb. apply Bool.eq_iff_eq_true. rewrite Qeq_bool_iff, Z.eqb_eq.
  assert (E : (0 == inject_Z 0 / inject_Z 1)%Q) by reflexivity.
  rewrite E, qdiv_eq by lia. lia.
Qed.

Lemma zexact_value : forall op l r res, den l <> 0 -> den r <> 0 ->
  zexact op l r res ->
  same_value (value res) (exact_opt op (value l) (value r)).
Proof.
  intros op l r res Hl Hr H.
  rewrite (value_defined l Hl), (value_defined r Hr). cbn [exact_opt].
  assert (Nl := iz_nz _ Hl). assert (Nr := iz_nz _ Hr).
  assert (den l * den r <> 0) by nia.
  destruct op; cbn [exact zexact] in *.
  - destruct H as [D H]. rewrite (value_defined res D). cbn [same_value].
    transitivity (inject_Z (num l * den r + num r * den l) / inject_Z (den l * den r))%Q.
    + apply qdiv_eq; auto.
    + rewrite inject_Z_plus, !inject_Z_mult. field; auto.
  - destruct H as [D H]. rewrite (value_defined res D). cbn [same_value].
    transitivity (inject_Z (num l * den r - num r * den l) / inject_Z (den l * den r))%Q.
    + apply qdiv_eq; auto.
    + unfold Z.sub. rewrite inject_Z_plus, inject_Z_opp, !inject_Z_mult. field; auto.
  - destruct H as [D H]. rewrite (value_defined res D). cbn [same_value].
    transitivity (inject_Z (num l * num r) / inject_Z (den l * den r))%Q.
    + apply qdiv_eq; auto.
    + rewrite !inject_Z_mult. field; auto.
  - rewrite qdiv_zero by auto. destruct H as [H1 H2].
    destruct (Z.eqb_spec (num r) 0).
    + rewrite value_undefined by auto. exact I.
    + destruct (H2 n) as [D E]. rewrite (value_defined res D). cbn [same_value].
      assert (Nn := iz_nz _ n).
      transitivity (inject_Z (num l * den r) / inject_Z (den l * num r))%Q.
      * apply qdiv_eq; auto. nia.
      * rewrite !inject_Z_mult. field; auto.
  - destruct H as [Nz [D H]]. rewrite qdiv_zero by auto.
    destruct (Z.eqb_spec (num r) 0); [contradiction|].
    rewrite (value_defined res D). cbn [same_value].
    assert (Nn := iz_nz _ n).
    assert (T : Qtrunc (inject_Z (num l) / inject_Z (den l) / (inject_Z (num r) / inject_Z (den r)))
                = Z.quot (num l * den r) (num r * den l)).
    { rewrite <- Qtrunc_div by nia. apply Qtrunc_proper.
      rewrite !inject_Z_mult. field; auto. }
    rewrite T.
    transitivity (inject_Z (Z.rem (num l * den r) (num r * den l)) / inject_Z (den l * den r))%Q.
    + apply qdiv_eq; auto.
    + assert (R : Z.rem (num l * den r) (num r * den l)
                  = num l * den r - num r * den l * Z.quot (num l * den r) (num r * den l)).
      { pose proof (Z.quot_rem' (num l * den r) (num r * den l)). lia. }
      rewrite R. unfold Z.sub. rewrite inject_Z_plus, inject_Z_opp, !inject_Z_mult. field; auto.
Qed.

(** The least common multiple as used by [safe]. *)
Lemma lcm_parts : forall a b, a <> 0 -> b <> 0 ->
  exists k1 k2, Z.lcm a b = a * k1 /\ Z.lcm a b = b * k2
    /\ Z.quot (Z.lcm a b) a = k1 /\ Z.quot (Z.lcm a b) b = k2
    /\ 0 < Z.lcm a b /\ k1 <> 0 /\ k2 <> 0
    /\ Z.abs k1 <= Z.abs b /\ Z.abs k2 <= Z.abs a /\ Z.lcm a b <= Z.abs a * Z.abs b.
Proof.
  intros a b Ha Hb.
  destruct (Z.divide_lcm_l a b) as [k1 H1]. destruct (Z.divide_lcm_r a b) as [k2 H2].
  assert (P : 0 < Z.lcm a b).
  { pose proof (Z.lcm_nonneg a b).
    destruct (Z.eq_dec (Z.lcm a b) 0) as [E|]; [|lia]. apply Z.lcm_eq_0 in E. tauto. }
  assert (B : Z.lcm a b <= Z.abs a * Z.abs b).
  { apply Z.divide_pos_le; [nia|]. apply Z.lcm_least.
    - apply Z.divide_mul_l. apply Z.divide_abs_r. apply Z.divide_refl.
    - apply Z.divide_mul_r. apply Z.divide_abs_r. apply Z.divide_refl. }
  exists k1, k2. rewrite Z.mul_comm in H1, H2.
  assert (Q1 : Z.quot (Z.lcm a b) a = k1) by (rewrite H1, Z.mul_comm; apply Z.quot_mul; auto).
  assert (Q2 : Z.quot (Z.lcm a b) b = k2) by (rewrite H2, Z.mul_comm; apply Z.quot_mul; auto).
  repeat split; auto; try nia.
Qed.

Lemma z_safe_mod : forall ln ld rn rd m k1 k2,
  ld <> 0 -> rd <> 0 -> rn <> 0 -> m = ld * k1 -> m = rd * k2 -> m <> 0 ->
  Z.rem (k1 * ln) (k2 * rn) * (ld * rd) = Z.rem (ln * rd) (rn * ld) * m.
Proof.
  intros. assert (k2 <> 0) by nia.
  rewrite <- !Z.mul_rem_distr_r by nia.
  f_equal; [rewrite H2|rewrite H3]; ring.
Qed.

Lemma rem_scale : forall a b c, b <> 0 -> c <> 0 -> Z.rem a b * c = Z.rem (a * c) (b * c).
Proof. intros. now rewrite Z.mul_rem_distr_r. Qed.

Lemma safe_zexact : forall t op a r, rsigned t = true ->
  defined_args a -> p_arith safe t op a = Ok r -> zexact op (lraw a) (rraw a) r.
Proof.
  intros t op a r S D H. apply defined_args_raw in D as [Dl Dr].
  destruct op, a as [l r'|l z|z l]; cbn [lraw rraw p_arith safe
    p_plus_rr p_plus_ri p_plus_ir p_minus_rr p_minus_ri p_minus_ir
    p_multiplies_rr p_multiplies_ri p_multiplies_ir p_divides_rr p_divides_ri p_divides_ir
    p_modulus_rr p_modulus_ri p_modulus_ir] in *;
  unfold safe_plus_rr, safe_plus_ir, safe_plus_ri, safe_minus_rr, safe_minus_ri,
    safe_minus_ir, safe_multiplies_rr, safe_multiplies_ir, safe_multiplies_ri,
    safe_divides_rr, safe_divides_ri, safe_divides_ir, safe_modulus_rr,
    safe_modulus_ri, safe_modulus_ir in H;
  inv_bind H; signed_facts S;
  try (match goal with E : std_lcm _ _ _ = Ok _ |- _ =>
         apply std_lcm_ok in E as [-> [_ [_ _]]] end);
  inversion H; subst; clear H; cbn [zexact num den] in *;
  try (match goal with |- context [Z.lcm _ _] =>
         destruct (lcm_parts _ _ Dl Dr) as
           [k1 [k2 [K1 [K2 [Q1 [Q2 [P [N1 [N2 _]]]]]]]]];
         rewrite Q1, Q2; clear Q1 Q2 end).
  - split; [lia|]. rewrite Z.mul_add_distr_r, Z.mul_add_distr_r. f_equal.
    + rewrite K1. ring.
    + rewrite K2. ring.
  - split; [lia|]. ring.
  - split; [lia|]. ring.
  - split; [lia|]. rewrite Z.mul_sub_distr_r, Z.mul_sub_distr_r. f_equal.
    + rewrite K1. ring.
    + rewrite K2. ring.
  - split; [lia|]. ring.
  - split; [lia|]. ring.
  - split; [nia|]. ring.
  - split; [lia|]. ring.
  - split; [lia|]. ring.
  - split; intros; [nia|]. split; [nia|]. ring.
  - split; intros; [nia|]. split; [nia|]. ring.
  - split; intros; [nia|]. split; [nia|]. ring.
  - assert (num r' <> 0) by (intro X; match goal with N : _ <> 0 |- _ => apply N; rewrite X; ring end).
    split; [auto|]. split; [lia|]. apply z_safe_mod; auto; lia.
  - assert (z <> 0) by (intro X; match goal with N : _ <> 0 |- _ => apply N; rewrite X; ring end).
    split; [auto|]. split; [lia|].
    rewrite !Z.mul_1_r. rewrite (Z.mul_comm z). reflexivity.
  - split; [auto|]. split; [lia|].
    rewrite !Z.mul_1_r, Z.mul_1_l. rewrite (Z.mul_comm z). reflexivity.
Qed.

Lemma fast_zexact : forall t op a r, rsigned t = true ->
  defined_args a -> p_arith fast t op a = Ok r -> zexact op (lraw a) (rraw a) r.
Proof.
  intros t op a r S D H. apply defined_args_raw in D as [Dl Dr].
  destruct op, a as [l r'|l z|z l]; cbn [lraw rraw p_arith fast
    p_plus_rr p_plus_ri p_plus_ir p_minus_rr p_minus_ri p_minus_ir
    p_multiplies_rr p_multiplies_ri p_multiplies_ir p_divides_rr p_divides_ri p_divides_ir
    p_modulus_rr p_modulus_ri p_modulus_ir] in *;
  unfold fast_plus_rr, fast_plus_ir, fast_plus_ri, fast_minus_rr, fast_minus_ri,
    fast_minus_ir, fast_multiplies_rr, fast_multiplies_ir, fast_multiplies_ri,
    fast_divides_rr, fast_divides_ri, fast_divides_ir, fast_modulus_rr,
    fast_modulus_ri, fast_modulus_ir in H;
  inv_bind H; signed_facts S;
  inversion H; subst; clear H; cbn [zexact num den] in *.
  - split; [nia|]. ring.
  - split; [lia|]. ring.
  - split; [lia|]. ring.
  - split; [nia|]. ring.
  - split; [lia|]. ring.
  - split; [lia|]. ring.
  - split; [nia|]. ring.
  - split; [lia|]. ring.
  - split; [lia|]. ring.
  - split; intros; [nia|]. split; [nia|]. ring.
  - split; intros; [nia|]. split; [nia|]. ring.
  - split; intros; [nia|]. split; [nia|]. ring.
  - assert (num r' <> 0) by (intro X; match goal with N : _ <> 0 |- _ => apply N; rewrite X; ring end).
    split; [auto|]. split; [nia|]. reflexivity.
  - assert (z <> 0) by (intro X; match goal with N : _ <> 0 |- _ => apply N; rewrite X; ring end).
    split; [auto|]. split; [lia|]. rewrite !Z.mul_1_r. reflexivity.
  - split; [auto|]. split; [lia|]. rewrite !Z.mul_1_r, Z.mul_1_l. reflexivity.
Qed.

(** ** Results of every policy are values of the representation *)

Definition policy_wf (p : policy) : Prop :=
  (forall t op a r, wf_rep t -> wf_args t a -> p_arith p t op a = Ok r -> wf_raw t r)
  /\ (forall t v r, wf_rep t -> wf_raw t v -> p_negate p t v = Ok r -> wf_raw t r).

Ltac unfold_policy H :=
  cbn [p_arith p_cmp safe fast reduced_input reduced_output p_negate
    p_plus_rr p_plus_ri p_plus_ir p_minus_rr p_minus_ri p_minus_ir
    p_multiplies_rr p_multiplies_ri p_multiplies_ir p_divides_rr p_divides_ri p_divides_ir
    p_modulus_rr p_modulus_ri p_modulus_ir
    p_equal_to_rr p_equal_to_ri p_equal_to_ir
    p_not_equal_to_rr p_not_equal_to_ri p_not_equal_to_ir
    p_less_rr p_less_ri p_less_ir p_less_equal_rr p_less_equal_ri p_less_equal_ir
    p_greater_rr p_greater_ri p_greater_ir
    p_greater_equal_rr p_greater_equal_ri p_greater_equal_ir] in H;
  unfold safe_negate, safe_plus_rr, safe_plus_ir, safe_plus_ri, safe_minus_rr, safe_minus_ri,
    safe_minus_ir, safe_multiplies_rr, safe_multiplies_ir, safe_multiplies_ri,
    safe_divides_rr, safe_divides_ri, safe_divides_ir, safe_modulus_rr,
    safe_modulus_ri, safe_modulus_ir,
    fast_negate, fast_plus_rr, fast_plus_ir, fast_plus_ri, fast_minus_rr, fast_minus_ri,
    fast_minus_ir, fast_multiplies_rr, fast_multiplies_ir, fast_multiplies_ri,
    fast_divides_rr, fast_divides_ri, fast_divides_ir, fast_modulus_rr,
    fast_modulus_ri, fast_modulus_ir,
    ri_negate, ri_plus_rr, ri_plus_ir, ri_plus_ri, ri_minus_rr, ri_minus_ri,
    ri_minus_ir, ri_multiplies_rr, ri_multiplies_ir, ri_multiplies_ri,
    ri_divides_rr, ri_divides_ri, ri_divides_ir, ri_modulus_rr,
    ri_modulus_ri, ri_modulus_ir,
    ro_negate, ro_plus_rr, ro_plus_ir, ro_plus_ri, ro_minus_rr, ro_minus_ri,
    ro_minus_ir, ro_multiplies_rr, ro_multiplies_ir, ro_multiplies_ri,
    ro_divides_rr, ro_divides_ri, ro_divides_ir, ro_modulus_rr,
    ro_modulus_ri, ro_modulus_ir in H.

Ltac result_in :=
  repeat
    match goal with
    | W : wf_rep ?t, H : m_add ?t _ _ = Ok ?r |- _ =>
        unfold m_add in H; apply arith_result_in in H; [|exact W]
    | W : wf_rep ?t, H : m_sub ?t _ _ = Ok ?r |- _ =>
        unfold m_sub in H; apply arith_result_in in H; [|exact W]
    | W : wf_rep ?t, H : m_mul ?t _ _ = Ok ?r |- _ =>
        unfold m_mul in H; apply arith_result_in in H; [|exact W]
    | W : wf_rep ?t, H : m_neg ?t _ = Ok ?r |- _ =>
        unfold m_neg in H; apply arith_result_in in H; [|exact W]
    | W : wf_rep ?t, H : m_div ?t _ _ = Ok ?r |- _ =>
        apply m_div_result_in in H; [|exact W]
    | W : wf_rep ?t, H : m_rem ?t _ _ = Ok ?r |- _ =>
        apply m_rem_result_in in H; [|exact W|assumption]
    end.

Lemma safe_wf : policy_wf safe.
Proof.
  split.
  - intros t op a r W A H. destruct op, a as [l r'|l z|z l]; unfold_policy H;
    inv_bind H;
    try (match goal with E : std_lcm _ _ _ = Ok _ |- _ =>
         apply std_lcm_ok in E as [_ [_ [_ E]]] end);
    destruct A as [A1 A2];
    repeat match goal with A : wf_raw _ _ |- _ => destruct A end;
    result_in; inversion H; subst; split; cbn; auto.
  - intros t v r W [A1 A2] H. unfold_policy H. inv_bind H. result_in.
    inversion H; subst; split; cbn; auto.
Qed.

Lemma fast_wf : policy_wf fast.
Proof.
  split.
  - intros t op a r W A H. destruct op, a as [l r'|l z|z l]; unfold_policy H;
    inv_bind H; destruct A as [A1 A2];
    repeat match goal with A : wf_raw _ _ |- _ => destruct A end;
    result_in; inversion H; subst; split; cbn; auto.
  - intros t v r W [A1 A2] H. unfold_policy H. inv_bind H. result_in.
    inversion H; subst; split; cbn; auto.
Qed.

(** Reduction of the fraction operands. *)
Definition args_reduce (m : reduce_mode) (a b : args) : Prop :=
  match a, b with
  | RR l r, RR l' r' => reduces_to m l l' /\ reduces_to m r r'
  | RI l z, RI l' z' => reduces_to m l l' /\ z = z'
  | IR z r, IR z' r' => z = z' /\ reduces_to m r r'
  | _, _ => False
  end.

Definition reduce_args (t : rep) (a : args) (m : reduce_mode) : res args :=
  match a with
  | RR l r => do l' <- reduce t l m; do r' <- reduce t r m; Ok (RR l' r')
  | RI l z => do l' <- reduce t l m; Ok (RI l' z)
  | IR z r => do r' <- reduce t r m; Ok (IR z r')
  end.

(** reduced_input acts by reducing the operands, reduced_output by reducing the
    result. *)
Lemma ri_arith_eq : forall p m t op a,
  p_arith (reduced_input p m) t op a =
  (do a' <- reduce_args t a m; p_arith p t op a').
Proof.
  intros p m t op a; destruct op, a; cbn;
    unfold ri_plus_rr, ri_plus_ir, ri_plus_ri, ri_minus_rr, ri_minus_ri,
    ri_minus_ir, ri_multiplies_rr, ri_multiplies_ir, ri_multiplies_ri,
    ri_divides_rr, ri_divides_ri, ri_divides_ir, ri_modulus_rr,
    ri_modulus_ri, ri_modulus_ir;
  repeat (match goal with |- context [bind (reduce ?t ?x ?m) _] =>
            destruct (reduce t x m); cbn [bind] end); reflexivity.
Qed.

Lemma ri_cmp_eq : forall p m t op a,
  p_cmp (reduced_input p m) t op a =
  (do a' <- reduce_args t a m; p_cmp p t op a').
Proof.
  intros p m t op a; destruct op, a; cbn;
    unfold ri_equal_to_rr, ri_equal_to_ri, ri_equal_to_ir,
    ri_not_equal_to_rr, ri_not_equal_to_ri, ri_not_equal_to_ir,
    ri_less_rr, ri_less_ri, ri_less_ir, ri_less_equal_rr, ri_less_equal_ri,
    ri_less_equal_ir, ri_greater_rr, ri_greater_ri, ri_greater_ir,
    ri_greater_equal_rr, ri_greater_equal_ri, ri_greater_equal_ir;
  repeat (match goal with |- context [bind (reduce ?t ?x ?m) _] =>
            destruct (reduce t x m); cbn [bind] end); reflexivity.
Qed.

Lemma ro_arith_eq : forall p m t op a,
  p_arith (reduced_output p m) t op a = (do r <- p_arith p t op a; reduce t r m).
Proof. intros p m t op a; destruct op, a; reflexivity. Qed.

Lemma ro_cmp_eq : forall p m t op a,
  p_cmp (reduced_output p m) t op a = p_cmp p t op a.
Proof. intros p m t op a; destruct op, a; reflexivity. Qed.

Lemma reduce_args_spec : forall t a m b, wf_rep t -> wf_args t a ->
  reduce_args t a m = Ok b -> wf_args t b /\ args_reduce m a b.
Proof.
  intros t a m b W A H. destruct a as [l r|l z|z r]; cbn in *; destruct A as [A1 A2];
  inv_bind H; inversion H; subst; cbn;
  repeat match goal with E : reduce _ _ _ = Ok _ |- _ =>
           apply reduce_spec in E as [? [? _]]; auto end.
Qed.

Lemma args_reduce_left : forall m a b, args_reduce m a b ->
  same_value (left_value b) (left_value a).
Proof.
  intros m a b H. destruct a, b; cbn in H; try tauto; destruct H; subst; cbn [left_value];
    try reflexivity; eapply reduces_same_value; eauto.
Qed.
Lemma args_reduce_right : forall m a b, args_reduce m a b ->
  same_value (right_value b) (right_value a).
Proof.
  intros m a b H. destruct a, b; cbn in H; try tauto; destruct H; subst; cbn [right_value];
    try reflexivity; eapply reduces_same_value; eauto.
Qed.

Lemma same_value_not_none : forall x y, same_value x y -> (x <> None <-> y <> None).
Proof. intros [x|] [y|]; cbn; intuition congruence. Qed.

Lemma args_reduce_defined : forall m a b, args_reduce m a b ->
  (defined_args b <-> defined_args a).
Proof.
  intros m a b H. unfold defined_args.
  rewrite (same_value_not_none _ _ (args_reduce_left _ _ _ H)).
  rewrite (same_value_not_none _ _ (args_reduce_right _ _ _ H)). tauto.
Qed.

Lemma ri_wf : forall p m, policy_wf p -> policy_wf (reduced_input p m).
Proof.
  intros p m [Pa Pn]. split.
  - intros t op a r W A H. rewrite ri_arith_eq in H. inv_bind H.
    apply reduce_args_spec in E as [W' _]; eauto.
  - intros t v r W A H. unfold_policy H. inv_bind H.
    apply reduce_spec in E as [W' _]; eauto.
Qed.

Lemma ro_wf : forall p m, policy_wf p -> policy_wf (reduced_output p m).
Proof.
  intros p m [Pa Pn]. split.
  - intros t op a r W A H. rewrite ro_arith_eq in H. inv_bind H.
    apply reduce_spec in H as [W' _]; eauto.
  - intros t v r W A H. unfold_policy H. inv_bind H.
    apply reduce_spec in H as [W' _]; eauto.
Qed.

Lemma denote_wf : forall o, policy_wf (denote o).
Proof.
  induction o; cbn [denote];
    [apply safe_wf|apply fast_wf|now apply ri_wf|now apply ro_wf].
Qed.

(** ** Exactness *)

Definition policy_exact (p : policy) : Prop :=
  forall t op a r, wf_rep t -> rsigned t = true -> wf_args t a -> defined_args a ->
  p_arith p t op a = Ok r ->
  same_value (value r) (exact_opt op (left_value a) (right_value a)).

Lemma zexact_args : forall op a r, defined_args a -> zexact op (lraw a) (rraw a) r ->
  same_value (value r) (exact_opt op (left_value a) (right_value a)).
Proof.
  intros op a r D H. apply defined_args_raw in D as [Dl Dr].
  rewrite (left_value_raw a), (right_value_raw a). now apply zexact_value.
Qed.

Lemma denote_exact : forall o, policy_exact (denote o).
Proof.
  induction o as [| |o IH m|o IH m]; intros t op a r W S A D H; cbn [denote] in H.
  - apply zexact_args; auto. eapply safe_zexact; eauto.
  - apply zexact_args; auto. eapply fast_zexact; eauto.
  - rewrite ri_arith_eq in H. inv_bind H.
    apply reduce_args_spec in E as [W' R]; auto.
    apply IH in H; auto.
    + rewrite H, (args_reduce_left _ _ _ R), (args_reduce_right _ _ _ R). reflexivity.
    + now rewrite (args_reduce_defined _ _ _ R).
  - rewrite ro_arith_eq in H. inv_bind H.
    assert (W' : wf_raw t a0) by (eapply (proj1 (denote_wf o)); eauto).
    apply reduce_spec in H as [_ [R _]]; auto.
    rewrite (reduces_same_value _ _ _ R). eapply IH; eauto.
Qed.

(** Negation. *)
#[global] Instance opp_opt_proper : Proper (same_value ==> same_value) opp_opt.
Proof. intros [x|] [y|] H; cbn [same_value opp_opt] in *; auto. now rewrite H. Qed.

Lemma neg_value : forall v, same_value (value (mkRaw (- num v) (den v))) (opp_opt (value v)).
Proof.
  intros v. unfold value; cbn [num den]. destruct (Z.eqb_spec (den v) 0); [exact I|].
  cbn [same_value opp_opt]. rewrite inject_Z_opp. pose proof (iz_nz _ n). field; auto.
Qed.

Lemma denote_negate : forall o t v r, wf_rep t -> rsigned t = true -> wf_raw t v ->
  p_negate (denote o) t v = Ok r -> same_value (value r) (opp_opt (value v)).
Proof.
  induction o as [| |o IH m|o IH m]; intros t v r W S A H; cbn [denote] in H; unfold_policy H.
  - inv_bind H. signed_facts S. inversion H; subst. apply neg_value.
  - inv_bind H. signed_facts S. inversion H; subst. apply neg_value.
  - inv_bind H. apply reduce_spec in E as [W' [R _]]; auto.
    apply IH in H; auto. rewrite H. now rewrite (reduces_same_value _ _ _ R).
  - inv_bind H. assert (W' : wf_raw t a) by (eapply (proj2 (denote_wf o)); eauto).
    apply reduce_spec in H as [_ [R _]]; auto.
    rewrite (reduces_same_value _ _ _ R). eapply IH; eauto.
Qed.
