(** Commutativity, canonical results, ring laws, undefined operands. *)

From Coq Require Import ZArith QArith Bool Lia Znumtheory Zquot Setoid Morphisms.
From Verif Require Import Machine Raw Ops Spec Machine_proofs Value_proofs Ops_proofs Total_proofs Cmp_proofs Order_proofs.
Open Scope Z_scope.

(** ** Commutativity *)

Lemma agree_bind_l : forall A B (x y : res A) (f : A -> res B),
  agree x y -> agree (bind x f) (bind y f).
Proof.
  intros A B x y f H. destruct x as [a|u].
  - rewrite (proj1 (H a) eq_refl). apply agree_refl.
  - destruct y as [b|u']; [specialize (proj2 (H b) eq_refl); discriminate|].
    intros v; cbn; split; discriminate.
Qed.

Ltac agree_cases :=
  repeat (cbn [bind];
    match goal with
    | |- agree ?l ?r =>
        match l with
        | context [bind ?x _] => match x with bind _ _ => fail 1 | Ok _ => fail 1 | UB _ => fail 1 | _ => destruct x end
        end
    end);
  repeat (cbn [bind];
    match goal with
    | |- agree ?l ?r =>
        match r with
        | context [bind ?x _] => match x with bind _ _ => fail 1 | Ok _ => fail 1 | UB _ => fail 1 | _ => destruct x end
        end
    end); cbn [bind].

Lemma safe_plus_comm : forall t l r, agree (safe_plus_rr t l r) (safe_plus_rr t r l).
Proof.
  intros t l r. unfold safe_plus_rr. rewrite (std_lcm_comm t (den r)).
  destruct (std_lcm t (den l) (den r)) as [m|]; cbn [bind]; [|apply agree_refl].
  destruct (m_div t m (den l)) as [a|], (m_div t m (den r)) as [b|]; cbn [bind];
    try destruct (m_mul t a (num l)) as [a'|]; cbn [bind];
    try destruct (m_mul t b (num r)) as [b'|]; cbn [bind];
    try (unfold m_add; rewrite Z.add_comm; apply agree_refl); intros v; split; discriminate.
Qed.

Lemma mul_comm : forall t x y, m_mul t x y = m_mul t y x.
Proof. intros. unfold m_mul. now rewrite Z.mul_comm. Qed.
Lemma add_comm : forall t x y, m_add t x y = m_add t y x.
Proof. intros. unfold m_add. now rewrite Z.add_comm. Qed.

Lemma fast_plus_comm : forall t l r, agree (fast_plus_rr t l r) (fast_plus_rr t r l).
Proof.
  intros t l r. unfold fast_plus_rr. rewrite (mul_comm t (den r) (den l)).
  destruct (m_mul t (num l) (den r)) as [a|], (m_mul t (num r) (den l)) as [b|]; cbn [bind];
    try (rewrite (add_comm t b a)); try apply agree_refl; intros v; split; discriminate.
Qed.

Definition commutes (op : arith_op) : bool :=
  match op with Plus | Multiplies => true | _ => false end.

Lemma denote_comm : forall o t op a, commutes op = true ->
  agree (p_arith (denote o) t op a) (p_arith (denote o) t op (swap a)).
Proof.
  induction o as [| |o IH m|o IH m]; intros t op a C; cbn [denote].
  - destruct op; try discriminate; destruct a as [l r|l z|z r]; cbn; try apply agree_refl.
    + apply safe_plus_comm.
    + unfold safe_multiplies_rr. rewrite (mul_comm t (num r)), (mul_comm t (den r)). apply agree_refl.
  - destruct op; try discriminate; destruct a as [l r|l z|z r]; cbn; try apply agree_refl.
    + apply fast_plus_comm.
    + unfold fast_multiplies_rr. rewrite (mul_comm t (num r)), (mul_comm t (den r)). apply agree_refl.
  - rewrite !ri_arith_eq. apply agree_reduce_swap. auto.
  - rewrite !ro_arith_eq. apply agree_bind_l. auto.
Qed.

(** ** Canonical results *)

Lemma reduce_ignore_canonical : forall v r, reduces_to ignore_signs_mode v r ->
  canonical v -> canonical r.
Proof.
  intros v r H C. pose proof (reduces_den_sign _ _ H) as S.
  destruct H as [[D ->]|[D [g [G [Hn [Hd [Hg _]]]]]]]; [left; cbn; auto|].
  destruct C as [[_ C]|[C _]]; [contradiction|]. right. split; auto. lia.
Qed.

Lemma denote_canonical : forall o t op a r, wf_rep t -> wf_args t a ->
  output_canonical o = true -> p_arith (denote o) t op a = Ok r -> canonical r.
Proof.
  induction o as [| |o IH m|o IH m]; intros t op a r W A C H; try discriminate; cbn [denote] in H.
  - rewrite ri_arith_eq in H. inv_bind H. apply reduce_args_spec in E as [W' _]; eauto.
  - rewrite ro_arith_eq in H. inv_bind H. rename E into E1.
    pose proof (proj1 (denote_wf o) t op a _ W A E1) as W1.
    apply reduce_spec in H as [W' [R _]]; auto.
    destruct m; [eapply reduces_canonical; eauto|].
    eapply reduce_ignore_canonical; eauto.
Qed.

Lemma denote_negate_canonical : forall o t v r, wf_rep t -> wf_raw t v ->
  output_canonical o = true -> p_negate (denote o) t v = Ok r -> canonical r.
Proof.
  induction o as [| |o IH m|o IH m]; intros t v r W A C H; try discriminate; cbn [denote] in H;
    unfold_policy H.
  - inv_bind H. apply reduce_spec in E as [W' _]; eauto.
  - inv_bind H. rename E into E1.
    pose proof (proj2 (denote_wf o) t v _ W A E1) as W1.
    apply reduce_spec in H as [W' [R _]]; auto.
    destruct m; [eapply reduces_canonical; eauto|].
    eapply reduce_ignore_canonical; eauto.
Qed.

(** Two policies that both succeed agree in value. *)
Lemma policies_agree : forall o1 o2 t op a r1 r2, wf_rep t -> rsigned t = true ->
  wf_args t a -> defined_args a ->
  p_arith (denote o1) t op a = Ok r1 -> p_arith (denote o2) t op a = Ok r2 ->
  same_value (value r1) (value r2).
Proof.
  intros o1 o2 t op a r1 r2 W S A D H1 H2.
  apply denote_exact in H1, H2; auto. now rewrite H1, H2.
Qed.

(** ** Undefined operands in arithmetic *)

Lemma mul_zero_r : forall t x r, wf_rep t -> m_mul t x 0 = Ok r -> r = 0.
Proof.
  intros t x r W H. unfold m_mul in H. rewrite Z.mul_0_r in H.
  rewrite arith_in in H; [now inversion H|auto|].
  apply in_rep_abs; auto; pose proof (rmax_big t W); lia.
Qed.
Lemma mul_zero_l : forall t x r, wf_rep t -> m_mul t 0 x = Ok r -> r = 0.
Proof. intros t x r W. rewrite mul_comm. now apply mul_zero_r. Qed.

Lemma lcm_zero : forall x y m, Z.lcm x y = m -> x = 0 \/ y = 0 -> m = 0.
Proof. intros x y m <- [->| ->]; [apply Z.lcm_0_l|apply Z.lcm_0_r]. Qed.

(** Integer operand 0 in [i / f] or [f / i]: covered, an undefined fraction stays so. *)
Definition undef_base (p : policy) : Prop :=
  forall t op a r, wf_rep t -> ~ defined_args a ->
  op <> Divides \/ (num (rraw a) = 0 \/ den (rraw a) <> 0) ->
  p_arith p t op a = Ok r -> den r = 0.

Lemma safe_undef : undef_base safe.
Proof.
  intros t op a r W D C H. apply undefined_args_raw in D.
  destruct op, a as [l r'|l z|z l]; cbn [lraw rraw den num] in D, C; unfold_policy H; inv_bind H;
  inversion H; subst; cbn [den];
  repeat match goal with
  | E : std_lcm _ _ _ = Ok _ |- _ => apply std_lcm_ok in E as [E _]; subst
  end;
  try (now destruct D; [|discriminate]);
  try (now destruct D; [discriminate|]);
  try (destruct D as [D|D]; rewrite D, ?Z.lcm_0_l, ?Z.lcm_0_r; reflexivity);
  repeat match goal with
  | D : _ \/ _ |- _ => destruct D as [D|D]; try discriminate; try contradiction; try congruence
  | D : den _ = 0 |- _ => rewrite D in *
  | D : num _ = 0 |- _ => rewrite D in *
  | E : m_mul _ 0 _ = Ok _ |- _ => apply mul_zero_l in E; [|assumption]
  | E : m_mul _ _ 0 = Ok _ |- _ => apply mul_zero_r in E; [|assumption]
  end; auto.
Qed.

Lemma fast_undef : undef_base fast.
Proof.
  intros t op a r W D C H. apply undefined_args_raw in D.
  destruct op, a as [l r'|l z|z l]; cbn [lraw rraw den num] in D, C; unfold_policy H; inv_bind H;
  inversion H; subst; cbn [den];
  try (now destruct D; [|discriminate]);
  try (now destruct D; [discriminate|]);
  repeat match goal with
  | D : _ \/ _ |- _ => destruct D as [D|D]; try discriminate; try contradiction; try congruence
  | D : den _ = 0 |- _ => rewrite D in *
  | D : num _ = 0 |- _ => rewrite D in *
  | E : m_mul _ 0 _ = Ok _ |- _ => apply mul_zero_l in E; [|assumption]
  | E : m_mul _ _ 0 = Ok _ |- _ => apply mul_zero_r in E; [|assumption]
  end; auto.
Qed.

Lemma args_reduce_den_num : forall m a b, args_reduce m a b ->
  den (rraw b) = 0 -> num (rraw b) = 0.
Proof.
  intros m a b H D. destruct a, b; cbn in *; try tauto; try discriminate; destruct H as [H1 H2]; subst.
  - destruct H2 as [[_ ->]|[X [g [G [_ [Hd _]]]]]]; [reflexivity|]. nia.
  - destruct H2 as [[_ ->]|[X [g [G [_ [Hd _]]]]]]; [reflexivity|]. nia.
Qed.

Lemma denote_undef : forall o t op a r, wf_rep t -> wf_args t a -> ~ defined_args a ->
  op <> Divides \/ reduces_inputs o = true \/ (num (rraw a) = 0 \/ den (rraw a) <> 0) ->
  p_arith (denote o) t op a = Ok r -> value r = None.
Proof.
  induction o as [| |o IH m|o IH m]; intros t op a r W A D C H; cbn [denote] in H.
  - apply value_none_iff. eapply safe_undef; eauto. destruct C as [C|[C|C]]; auto; discriminate.
  - apply value_none_iff. eapply fast_undef; eauto. destruct C as [C|[C|C]]; auto; discriminate.
  - rewrite ri_arith_eq in H. inv_bind H. apply reduce_args_spec in E as [W' R]; auto.
    eapply IH; eauto.
    + now rewrite (args_reduce_defined _ _ _ R).
    + right; right. pose proof (args_reduce_den_num _ _ _ R).
      destruct (Z.eq_dec (den (rraw a0)) 0); auto.
  - rewrite ro_arith_eq in H. inv_bind H.
    pose proof (proj1 (denote_wf o) t op a _ W A E) as W1.
    apply reduce_spec in H as [W' [R _]]; auto.
    apply IH in E; auto. apply value_none_iff. apply (reduces_den_zero _ _ _ R).
    now apply value_none_iff.
Qed.

(** Negating an undefined fraction. *)
Lemma denote_negate_undef : forall o t v r, wf_rep t -> wf_raw t v -> value v = None ->
  p_negate (denote o) t v = Ok r -> value r = None.
Proof.
  induction o as [| |o IH m|o IH m]; intros t v r W A D H; cbn [denote] in H; unfold_policy H.
  - inv_bind H. inversion H; subst. apply value_none_iff. now apply value_none_iff in D.
  - inv_bind H. inversion H; subst. apply value_none_iff. now apply value_none_iff in D.
  - inv_bind H. apply reduce_spec in E as [W' [R _]]; auto.
    eapply IH; eauto. apply value_none_iff. apply (reduces_den_zero _ _ _ R).
    now apply value_none_iff.
  - inv_bind H.
    pose proof (proj2 (denote_wf o) t v _ W A E) as W1.
    apply reduce_spec in H as [W' [R _]]; auto.
    apply IH in E; auto. apply value_none_iff. apply (reduces_den_zero _ _ _ R).
    now apply value_none_iff.
Qed.

(** Exactness with undefined operands included: the result is the exact
    result, "undefined" propagating. *)
Lemma denote_exact_opt : forall o t op a r, wf_rep t -> rsigned t = true -> wf_args t a ->
  op <> Divides \/ reduces_inputs o = true \/ right_value a <> None ->
  p_arith (denote o) t op a = Ok r ->
  same_value (value r) (exact_opt op (left_value a) (right_value a)).
Proof.
  intros o t op a r W S A C H.
  destruct (left_value a) as [x|] eqn:L, (right_value a) as [y|] eqn:R.
  1:{ rewrite <- L, <- R. apply (denote_exact o t op a r); auto. split; congruence. }
  all: cbn [exact_opt]; erewrite (denote_undef o t op a r); eauto; try exact I;
    try (intros []; congruence);
    destruct C as [C|[C|C]]; auto; try congruence.
  right; right; right.
  destruct a; cbn in *; try discriminate; intros D; apply value_none_iff in D; congruence.
Qed.

(** ** The traps: safe (and the default policy) on undefined operands *)

Lemma safe_lcm_zero_traps : forall t l r, wf_rep t -> den l = 0 \/ den r = 0 ->
  forall f : Z -> Z -> Z -> res raw,
  exists u, (do m <- std_lcm t (den l) (den r);
             do a <- m_div t m (den l); do a <- m_mul t a (num l);
             do b <- m_div t m (den r); do b <- m_mul t b (num r);
             f m a b) = UB u.
Proof.
  intros t l r W D f. unfold std_lcm.
  destruct (in_rep t (Z.abs (den l)) && in_rep t (Z.abs (den r)) && in_rep t (Z.lcm (den l) (den r)));
    cbn [bind]; [|eauto].
  destruct D as [D|D]; rewrite D.
  - unfold m_div at 1. cbn. eauto.
  - destruct (m_div t _ (den l)) as [a|]; cbn [bind]; [|eauto].
    destruct (m_mul t a (num l)) as [a'|]; cbn [bind]; [|eauto].
    unfold m_div at 1. cbn. eauto.
Qed.

Lemma safe_undef_traps : forall t op l r, wf_rep t ->
  op = Plus \/ op = Minus \/ op = Modulus -> den l = 0 \/ den r = 0 ->
  exists u, p_arith safe t op (RR l r) = UB u.
Proof.
  intros t op l r W [->|[->| ->]] D; cbn; apply (safe_lcm_zero_traps t l r W D).
Qed.

Lemma built_on_safe_undef_traps : forall o t op l r, wf_rep t -> wf_raw t l -> wf_raw t r ->
  built_on_safe o = true ->
  op = Plus \/ op = Minus \/ op = Modulus -> value l = None \/ value r = None ->
  exists u, p_arith (denote o) t op (RR l r) = UB u.
Proof.
  induction o as [| |o IH m|o IH m]; intros t op l r W Wl Wr C O D; cbn [denote] in *.
  - apply safe_undef_traps; auto. now rewrite !value_none_iff in D.
  - discriminate.
  - rewrite ri_arith_eq. cbn [reduce_args].
    destruct (reduce t l m) as [l'|] eqn:El; cbn [bind]; [|eauto].
    destruct (reduce t r m) as [r'|] eqn:Er; cbn [bind]; [|eauto].
    apply reduce_spec in El as [Wl' [Rl _]], Er as [Wr' [Rr _]]; auto.
    apply IH; auto. rewrite !value_none_iff in *.
    now rewrite (reduces_den_zero _ _ _ Rl), (reduces_den_zero _ _ _ Rr).
  - rewrite ro_arith_eq. destruct (IH t op l r) as [u ->]; auto. cbn. eauto.
Qed.

(** * and / under the default policy: an undefined operand gives 0/0. *)
Lemma not_min_abs : forall t v, wf_rep t -> in_rep t v = true -> rsigned t = true ->
  v <> rmin t -> Z.abs v <= rmax t.
Proof. intros t v W H S N. apply in_rep_iff in H. rewrite (rmin_rmax_signed t S) in *. lia. Qed.

Lemma mul_00 : forall t x, wf_rep t -> m_mul t x 0 = Ok 0 /\ m_mul t 0 x = Ok 0.
Proof.
  intros t x W. rewrite (mul_comm t 0 x). unfold m_mul. rewrite Z.mul_0_r.
  rewrite arith_in; auto. apply in_rep_abs; auto; pose proof (rmax_big t W); lia.
Qed.

Lemma reduce_zero : forall t m, wf_rep t -> reduce t (mkRaw 0 0) m = Ok (mkRaw 0 0).
Proof. intros. now apply reduce_undefined. Qed.

Lemma ri_safe_mul_div_undef : forall t op m l r, wf_rep t -> wf_raw t l -> wf_raw t r ->
  raw_bounded (rmax t) l -> raw_bounded (rmax t) r ->
  op = Multiplies \/ op = Divides -> value l = None \/ value r = None ->
  p_arith (reduced_input safe m) t op (RR l r) = Ok (mkRaw 0 0).
Proof.
  intros t op m l r W Wl Wr [Bl1 Bl2] [Br1 Br2] O D. rewrite !value_none_iff in D.
  rewrite ri_arith_eq. cbn [reduce_args].
  destruct (reduce_total t l m W Wl Bl1 Bl2) as [l' El].
  destruct (reduce_total t r m W Wr Br1 Br2) as [r' Er].
  rewrite El, Er. cbn [bind].
  destruct D as [D|D].
  - rewrite (reduce_undefined t l m W D) in El. inversion El; subst.
    destruct O as [->| ->]; cbn; unfold safe_multiplies_rr, safe_divides_rr; cbn [num den];
      rewrite ?(proj2 (mul_00 t _ W)); reflexivity.
  - rewrite (reduce_undefined t r m W D) in Er. inversion Er; subst.
    destruct O as [->| ->]; cbn; unfold safe_multiplies_rr, safe_divides_rr; cbn [num den];
      rewrite ?(proj1 (mul_00 t _ W)); reflexivity.
Qed.

Lemma defaults_mul_div_undef : forall t op l r, wf_rep t -> wf_raw t l -> wf_raw t r ->
  raw_bounded (rmax t) l -> raw_bounded (rmax t) r ->
  op = Multiplies \/ op = Divides -> value l = None \/ value r = None ->
  p_arith (denote defaults) t op (RR l r) = Ok (mkRaw 0 0).
Proof.
  intros t op l r W Wl Wr Bl Br O D. unfold defaults, safe_reduced_io, safe_reduced_o.
  cbn [denote].
  pose proof (ri_safe_mul_div_undef t op ignore_signs_mode l r W Wl Wr Bl Br O D) as H.
  rewrite ri_arith_eq in *.
  destruct (reduce_args t (RR l r) ignore_signs_mode); cbn [bind] in *; [|discriminate].
  rewrite ro_arith_eq, H. cbn [bind]. now apply reduce_zero.
Qed.

(** A remainder that is not undefined behaviour has a non-zero divisor. *)
Definition modulus_nz (p : policy) : Prop :=
  forall t a r, wf_rep t -> rsigned t = true -> wf_args t a -> defined_args a ->
  p_arith p t Modulus a = Ok r -> num (rraw a) <> 0.

Lemma safe_modulus_nz : modulus_nz safe.
Proof.
  intros t a r W S A D H. apply defined_args_raw in D as [Dl Dr].
  destruct a; cbn [rraw num] in *; unfold_policy H; inv_all; signed_facts S; subst; nia.
Qed.
Lemma fast_modulus_nz : modulus_nz fast.
Proof.
  intros t a r W S A D H. apply defined_args_raw in D as [Dl Dr].
  destruct a; cbn [rraw num] in *; unfold_policy H; inv_all; signed_facts S; subst; nia.
Qed.
Lemma denote_modulus_nz : forall o, modulus_nz (denote o).
Proof.
  induction o as [| |o IH m|o IH m]; cbn [denote].
  - apply safe_modulus_nz.
  - apply fast_modulus_nz.
  - intros t a r W S A D H. rewrite ri_arith_eq in H. inv_bind H.
    apply reduce_args_spec in E as [W' R]; auto.
    apply IH in H; auto; [|now rewrite (args_reduce_defined _ _ _ R)].
    destruct a, a0; cbn in *; try tauto; destruct R as [R1 R2]; subst; auto.
    + destruct R2 as [[_ ->]|[_ [g [G [Hn _]]]]]; [now cbn in H|]. nia.
    + destruct R2 as [[_ ->]|[_ [g [G [Hn _]]]]]; [now cbn in H|]. nia.
  - intros t a r W S A D H. rewrite ro_arith_eq in H. inv_bind H. eapply IH; eauto.
Qed.

Lemma modulus_nonzero : forall o t a r x y, wf_rep t -> rsigned t = true -> wf_args t a ->
  left_value a = Some x -> right_value a = Some y ->
  p_arith (denote o) t Modulus a = Ok r -> ~ (y == 0)%Q.
Proof.
  intros o t a r x y W S A L R H Z.
  assert (D : defined_args a) by (split; congruence).
  pose proof (denote_modulus_nz o t a r W S A D H) as N. apply N.
  pose proof (right_value_raw a) as V. rewrite R in V.
  apply defined_args_raw in D as [_ Dr]. rewrite (value_defined _ Dr) in V. cbn [same_value] in V.
  rewrite Z in V. symmetry in V.
  assert (Q : Qeq_bool (inject_Z (num (rraw a)) / inject_Z (den (rraw a))) 0 = true)
    by (apply Qeq_bool_iff; exact V).
  rewrite qdiv_zero in Q by auto. now apply Z.eqb_eq.
Qed.

(** Negation is total away from the minimum. *)
Lemma negate_total : forall o t v, wf_rep t -> rsigned t = true -> wf_raw t v ->
  raw_bounded (rmax t) v ->
  exists r, p_negate (denote o) t v = Ok r /\ wf_raw t r /\ raw_bounded (rmax t) r.
Proof.
  intros o t v W S Wv B.
  cut (exists r, p_negate (denote o) t v = Ok r /\ raw_bounded (rmax t) r).
  { intros [r [H B']]. exists r. split; auto. split; auto. exact (proj2 (denote_wf o) t v r W Wv H). }
  revert v Wv B. induction o as [| |o IH m|o IH m]; intros v Wv [B1 B2]; cbn [denote];
    cbn [p_negate safe fast reduced_input reduced_output].
  1,2: unfold safe_negate, fast_negate, m_neg; rewrite arith_in; auto;
    [eexists; split; [reflexivity|]; split; cbn; lia|apply in_rep_abs; auto; [lia|congruence]].
  - unfold ri_negate. destruct (reduce_total t v normalize_signs_mode W Wv B1 B2) as [r E].
    rewrite E. cbn [bind]. apply reduce_spec in E as [W' [R _]]; auto.
    apply IH; auto. pose proof (reduces_bound _ _ _ R). split; lia.
  - unfold ro_negate. destruct (IH v Wv (conj B1 B2)) as [r [E [B3 B4]]]. rewrite E. cbn [bind].
    pose proof (proj2 (denote_wf o) t v r W Wv E) as Wr.
    destruct (reduce_total t r m W Wr B3 B4) as [r' E']. rewrite E'.
    apply reduce_spec in E' as [W' [R _]]; auto.
    exists r'. split; auto. pose proof (reduces_bound _ _ _ R). split; lia.
Qed.
