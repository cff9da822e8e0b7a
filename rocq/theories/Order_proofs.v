(** Mutual consistency of the comparisons, strict weak ordering, totality. *)

From Coq Require Import ZArith QArith Bool Lia Znumtheory Zquot Setoid Morphisms.
From Verif Require Import Machine Raw Ops Spec Machine_proofs Value_proofs Ops_proofs Total_proofs Cmp_proofs.
Open Scope Z_scope.

Lemma agree_refl : forall A (x : res A), agree x x.
Proof. intros A x v; tauto. Qed.
Lemma agree_sym : forall A (x y : res A), agree x y -> agree y x.
Proof. intros A x y H v; rewrite (H v); tauto. Qed.
Lemma agree_trans : forall A (x y z : res A), agree x y -> agree y z -> agree x z.
Proof. intros A x y z H K v; rewrite (H v); apply K. Qed.

Lemma agree_bind : forall A B (x : res A) (f g : A -> res B),
  (forall a, x = Ok a -> agree (f a) (g a)) -> agree (bind x f) (bind x g).
Proof. intros A B [a|u] f g H; cbn; [now apply H|apply agree_refl]. Qed.

Ltac crush_binds :=
  repeat (cbn [bind];
    match goal with
    | |- context [bind ?x _] =>
        match x with
        | bind _ _ => fail 1
        | Ok _ => fail 1
        | UB _ => fail 1
        | _ => destruct x
        end
    end); cbn [bind].

Lemma swap_involutive : forall a, swap (swap a) = a.
Proof. intros []; reflexivity. Qed.

Lemma reduce_args_swap : forall t a m b,
  reduce_args t (swap a) m = Ok b <-> reduce_args t a m = Ok (swap b).
Proof.
  intros t a m b. destruct a as [l r|l z|z r]; cbn [swap reduce_args].
  - destruct (reduce t l m), (reduce t r m); cbn [bind]; split; intros H; try discriminate;
      inversion H; subst; try reflexivity.
    destruct b; cbn in H1; inversion H1; subst. reflexivity.
  - destruct (reduce t l m); cbn [bind]; split; intros H; try discriminate;
      inversion H; subst; try reflexivity.
    destruct b; cbn in H1; inversion H1; subst. reflexivity.
  - destruct (reduce t r m); cbn [bind]; split; intros H; try discriminate;
      inversion H; subst; try reflexivity.
    destruct b; cbn in H1; inversion H1; subst. reflexivity.
Qed.

Lemma agree_reduce_swap : forall A t a m (f g : args -> res A),
  (forall b, agree (f b) (g (swap b))) ->
  agree (bind (reduce_args t a m) f) (bind (reduce_args t (swap a) m) g).
Proof.
  intros A t a m f g H.
  destruct (reduce_args t a m) as [b|u] eqn:E.
  - assert (E' : reduce_args t (swap a) m = Ok (swap b)).
    { rewrite reduce_args_swap, swap_involutive. exact E. }
    rewrite E'. cbn [bind]. apply H.
  - destruct (reduce_args t (swap a) m) as [b|u'] eqn:E'.
    + rewrite reduce_args_swap in E'. congruence.
    + intros v; cbn; split; discriminate.
Qed.

(** a > b is b < a, a >= b is b <= a. *)
Lemma denote_gt : forall o t a, agree (p_cmp (denote o) t Gt a) (p_cmp (denote o) t Lt (swap a)).
Proof.
  induction o as [| |o IH m|o IH m]; intros t a; cbn [denote].
  - destruct a; apply agree_refl.
  - destruct a; apply agree_refl.
  - rewrite !ri_cmp_eq. apply agree_reduce_swap. auto.
  - rewrite !ro_cmp_eq. auto.
Qed.

Lemma denote_ge : forall o t a, agree (p_cmp (denote o) t Ge a) (p_cmp (denote o) t Le (swap a)).
Proof.
  induction o as [| |o IH m|o IH m]; intros t a; cbn [denote].
  - destruct a; apply agree_refl.
  - destruct a; apply agree_refl.
  - rewrite !ri_cmp_eq. apply agree_reduce_swap. auto.
  - rewrite !ro_cmp_eq. auto.
Qed.

(** == is symmetric. *)
Lemma denote_eq_sym : forall o t a, agree (p_cmp (denote o) t Eq a) (p_cmp (denote o) t Eq (swap a)).
Proof.
  induction o as [| |o IH m|o IH m]; intros t a; cbn [denote].
  - destruct a as [l r|l z|z r]; [|apply agree_refl|apply agree_refl].
    cbn. unfold safe_equal_to_rr. rewrite (std_lcm_comm t (den r) (den l)).
    rewrite (orb_comm (is_undefined r)).
    destruct (is_undefined l || is_undefined r); [apply agree_refl|].
    destruct (std_lcm t (den l) (den r)) as [m|]; cbn [bind]; [|apply agree_refl].
    destruct (m_div t m (den l)) as [a|], (m_div t m (den r)) as [b|]; cbn [bind];
      try destruct (m_mul t a (num l)) as [a'|]; cbn [bind];
      try destruct (m_mul t b (num r)) as [b'|]; cbn [bind];
      try (rewrite Z.eqb_sym; apply agree_refl); intros v; split; discriminate.
  - destruct a as [l r|l z|z r]; [|apply agree_refl|apply agree_refl].
    cbn. unfold fast_equal_to_rr.
    destruct (m_mul t (num l) (den r)) as [x|], (m_mul t (num r) (den l)) as [y|]; cbn [bind];
      try (rewrite Z.eqb_sym, <- !andb_assoc, (andb_comm (is_defined l)); apply agree_refl);
      intros v; split; discriminate.
  - rewrite !ri_cmp_eq. apply agree_reduce_swap. auto.
  - rewrite !ro_cmp_eq. auto.
Qed.

(** a != b is !(a == b). *)
Lemma denote_ne : forall o t a,
  p_cmp (denote o) t Ne a = (do b <- p_cmp (denote o) t Eq a; Ok (negb b)).
Proof.
  induction o as [| |o IH m|o IH m]; intros t a; cbn [denote].
  - destruct a; reflexivity.
  - destruct a; reflexivity.
  - rewrite !ri_cmp_eq. destruct (reduce_args t a m); cbn [bind]; auto.
  - rewrite !ro_cmp_eq. auto.
Qed.

Lemma leb_or : forall x y, (x <=? y) = (x <? y) || (x =? y).
Proof. intros. apply Bool.eq_iff_eq_true. rewrite orb_true_iff, Z.leb_le, Z.ltb_lt, Z.eqb_eq. lia. Qed.

(** a <= b is (a < b or a == b), with the same undefined behaviour. *)
Lemma denote_le : forall o t a,
  p_cmp (denote o) t Le a =
  (do x <- p_cmp (denote o) t Lt a; do y <- p_cmp (denote o) t Eq a; Ok (x || y)).
Proof.
  induction o as [| |o IH m|o IH m]; intros t a; cbn [denote].
  - destruct a as [l r|l z|z r]; cbn;
      unfold safe_less_equal_rr, safe_less_rr, safe_equal_to_rr,
        safe_less_equal_ri, safe_less_ri, safe_equal_to_ir, safe_equal_to_ri,
        safe_less_equal_ir, safe_less_ir.
    + destruct (is_undefined l || is_undefined r); cbn [bind]; [reflexivity|].
      destruct (std_lcm t (den l) (den r)) as [m|]; cbn [bind]; [|reflexivity].
      destruct (m_div t m (den l)) as [x|]; cbn [bind]; [|reflexivity].
      destruct (m_mul t x (num l)) as [x'|]; cbn [bind]; [|reflexivity].
      destruct (m_div t m (den r)) as [y|]; cbn [bind]; [|reflexivity].
      destruct (m_mul t y (num r)) as [y'|]; cbn [bind]; [|reflexivity].
      now rewrite leb_or.
    + destruct (m_mul t z (den l)); cbn [bind]; [|reflexivity].
      rewrite leb_or. now destruct (num l <? a), (num l =? a), (is_defined l).
    + destruct (m_mul t z (den r)); cbn [bind]; [|reflexivity].
      rewrite leb_or, (Z.eqb_sym (num r)). now destruct (a <? num r), (a =? num r), (is_defined r).
  - destruct a as [l r|l z|z r]; cbn;
      unfold fast_less_equal_rr, fast_less_rr, fast_equal_to_rr,
        fast_less_equal_ri, fast_less_ri, fast_equal_to_ir, fast_equal_to_ri,
        fast_less_equal_ir, fast_less_ir.
    + destruct (m_mul t (num l) (den r)) as [x|]; cbn [bind]; [|reflexivity].
      destruct (m_mul t (num r) (den l)) as [y|]; cbn [bind]; [|reflexivity].
      rewrite leb_or. now destruct (x <? y), (x =? y), (is_defined l), (is_defined r).
    + destruct (m_mul t z (den l)); cbn [bind]; [|reflexivity].
      rewrite leb_or. now destruct (num l <? a), (num l =? a), (is_defined l).
    + destruct (m_mul t z (den r)); cbn [bind]; [|reflexivity].
      rewrite leb_or, (Z.eqb_sym (num r)). now destruct (a <? num r), (a =? num r), (is_defined r).
  - rewrite !ri_cmp_eq. destruct (reduce_args t a m); cbn [bind]; auto.
  - rewrite !ro_cmp_eq. auto.
Qed.

Lemma zcmp_trichotomy : forall x y, exactly_one (zcmp Lt x y) (zcmp Eq x y) (zcmp Gt x y).
Proof.
  intros x y. unfold exactly_one. cbn.
  destruct (Z.ltb_spec x y), (Z.eqb_spec x y), (Z.ltb_spec y x); try lia; auto.
Qed.

Lemma denote_trichotomy : forall o t a l e g, wf_rep t -> wf_args t a -> defined_args a ->
  p_cmp (denote o) t Lt a = Ok l -> p_cmp (denote o) t Eq a = Ok e ->
  p_cmp (denote o) t Gt a = Ok g -> exactly_one l e g.
Proof.
  induction o as [| |o IH m|o IH m]; intros t a l e g W A D Hl He Hg; cbn [denote] in *.
  - apply safe_cmp_sides in Hl as [x [y [E ->]]]; auto.
    apply safe_cmp_sides in He as [x' [y' [E' ->]]]; auto.
    apply safe_cmp_sides in Hg as [x'' [y'' [E'' ->]]]; auto.
    assert (x' = x /\ y' = y) as [-> ->] by (split; congruence).
    assert (x'' = x /\ y'' = y) as [-> ->] by (split; congruence).
    apply zcmp_trichotomy.
  - apply fast_cmp_sides in Hl as [x [y [E ->]]]; auto.
    apply fast_cmp_sides in He as [x' [y' [E' ->]]]; auto.
    apply fast_cmp_sides in Hg as [x'' [y'' [E'' ->]]]; auto.
    assert (x' = x /\ y' = y) as [-> ->] by (split; congruence).
    assert (x'' = x /\ y'' = y) as [-> ->] by (split; congruence).
    apply zcmp_trichotomy.
  - rewrite ri_cmp_eq in *. inv_bind Hl. cbn [bind] in *.
    apply reduce_args_spec in E as [W' R]; auto.
    eapply IH; eauto. now rewrite (args_reduce_defined _ _ _ R).
  - rewrite ro_cmp_eq in *. eauto.
Qed.

(** ** Comparisons inside the square-root bound have no undefined behaviour *)

Definition zsafe (a : args) : Z * Z :=
  match a with
  | RR l r => (Z.quot (Z.lcm (den l) (den r)) (den l) * num l,
               Z.quot (Z.lcm (den l) (den r)) (den r) * num r)
  | RI l z => (num l, z * den l)
  | IR z r => (z * den r, num r)
  end.
Definition zfast (a : args) : Z * Z :=
  match a with
  | RR l r => (num l * den r, num r * den l)
  | RI l z => (num l, z * den l)
  | IR z r => (z * den r, num r)
  end.

Lemma safe_sides_total : forall t a B, wf_rep t -> (rsigned t = false -> wf_args t a) ->
  defined_args a -> args_bounded B a -> B * B <= rmax t ->
  safe_sides t a = Ok (zsafe a).
Proof.
  intros t a B W A D HA HB. apply defined_args_raw in D as [Dl Dr].
  destruct a as [l r|l z|z l]; cbn [lraw rraw den wf_args args_bounded] in *; unfold raw_bounded in HA;
    cbn [safe_sides zsafe].
  - destruct HA as [[H1 H2] [H3 H4]].
    destruct (lcm_parts _ _ Dl Dr) as [k1 [k2 [K1 [K2 [Q1 [Q2 [P [N1 [N2 [L1 [L2 L3]]]]]]]]]]].
    assert (B1 : 1 <= B) by lia.
    assert (HBB : B <= B * B) by nia.
    assert (Mm : Z.lcm (den l) (den r) <= B * B).
    { eapply Z.le_trans; [exact L3|]. apply Z.mul_le_mono_nonneg; lia. }
    assert (M1 : Z.abs (k1 * num l) <= B * B) by (apply mul_bound; lia).
    assert (M2 : Z.abs (k2 * num r) <= B * B) by (apply mul_bound; lia).
    assert (U : rsigned t = false -> 0 < k1 /\ 0 < k2 /\ 0 <= num l /\ 0 <= num r).
    { intros S. specialize (A S) as [A1 A2].
      pose proof (den_pos_unsigned t l A1 Dl S). pose proof (den_pos_unsigned t r A2 Dr S).
      assert (0 < k1) by (clear - K1 P H; nia). assert (0 < k2) by (clear - K2 P H0; nia). lia. }
    assert (U1 : rsigned t = false -> 0 <= k1 * num l) by (intros S; specialize (U S); clear - U; nia).
    assert (U2 : rsigned t = false -> 0 <= k2 * num r) by (intros S; specialize (U S); clear - U; nia).
    rewrite exec_lcm; auto; try lia. cbn [bind].
    rewrite !m_div_in, Q1, Q2; auto.
    + cbn [bind]. rewrite exec_mul; auto; [cbn [bind]|lia].
      rewrite exec_mul; auto; lia.
    + rewrite Q2; apply in_rep_abs; auto; [lia|intros S; specialize (U S); lia].
    + rewrite Q1; apply in_rep_abs; auto; [lia|intros S; specialize (U S); lia].
  - assert (M : Z.abs (z * den l) <= B * B) by (apply mul_bound; lia).
    rewrite exec_mul; auto; [lia|].
    intros S. specialize (A S) as [A1 A2].
    pose proof (den_pos_unsigned t l A1 Dl S). pose proof (in_rep_nonneg t z A2 S). clear - H H0; nia.
  - assert (M : Z.abs (z * den l) <= B * B) by (apply mul_bound; lia).
    rewrite exec_mul; auto; [lia|].
    intros S. specialize (A S) as [A1 A2].
    pose proof (den_pos_unsigned t l A2 Dr S). pose proof (in_rep_nonneg t z A1 S). clear - H H0; nia.
Qed.

Lemma fast_sides_total : forall t a B, wf_rep t -> (rsigned t = false -> wf_args t a) ->
  args_bounded B a -> B * B <= rmax t ->
  fast_sides t a = Ok (zfast a).
Proof.
  intros t a B W A HA HB.
  destruct a as [l r|l z|z l]; cbn [wf_args args_bounded] in *; unfold raw_bounded in HA;
    cbn [fast_sides zfast].
  - destruct HA as [[H1 H2] [H3 H4]].
    assert (Z.abs (num l * den r) <= B * B) by (apply mul_bound; lia).
    assert (Z.abs (num r * den l) <= B * B) by (apply mul_bound; lia).
    rewrite exec_mul; auto; [cbn [bind]|lia|].
    + rewrite exec_mul; auto; [lia|]. intros S. specialize (A S) as [A1 A2].
      pose proof (wf_raw_nonneg t l A1 S). pose proof (wf_raw_nonneg t r A2 S). clear - H5 H6; nia.
    + intros S. specialize (A S) as [A1 A2].
      pose proof (wf_raw_nonneg t l A1 S). pose proof (wf_raw_nonneg t r A2 S). clear - H5 H6; nia.
  - assert (M : Z.abs (z * den l) <= B * B) by (apply mul_bound; lia).
    rewrite exec_mul; auto; [lia|].
    intros S. specialize (A S) as [A1 A2].
    pose proof (wf_raw_nonneg t l A1 S). pose proof (in_rep_nonneg t z A2 S). clear - H H0; nia.
  - assert (M : Z.abs (z * den l) <= B * B) by (apply mul_bound; lia).
    rewrite exec_mul; auto; [lia|].
    intros S. specialize (A S) as [A1 A2].
    pose proof (wf_raw_nonneg t l A2 S). pose proof (in_rep_nonneg t z A1 S). clear - H H0; nia.
Qed.

Lemma safe_cmp_exec : forall t op a x y, defined_args a ->
  safe_sides t a = Ok (x, y) -> p_cmp safe t op a = Ok (zcmp op x y).
Proof.
  intros t op a x y D H. apply defined_args_raw in D as [Dl Dr].
  assert (G : exists b, p_cmp safe t op a = Ok b).
  { destruct a as [l r|l z|z l]; cbn [lraw rraw den safe_sides] in *; inv_all;
    destruct op; match goal with |- exists b, ?e = Ok b => let G := fresh in
      remember e as G eqn:HG end; unfold_cmp HG;
    rewrite ?is_undefined_den, ?is_defined_den in HG by auto; cbn [orb] in HG;
    try (rewrite (std_lcm_comm t (den r) (den l)) in HG);
    repeat (first [progress cbn [bind] in HG
       | match goal with E : ?x = Ok _ |- _ =>
           match type of HG with context [bind x _] => rewrite E in HG end end]);
    subst; eauto. }
  destruct G as [b G]. rewrite G. apply safe_cmp_sides in G as [x' [y' [E ->]]].
  - now assert (x' = x /\ y' = y) as [-> ->] by (split; congruence).
  - now apply defined_args_raw.
Qed.

Lemma fast_cmp_exec : forall t op a x y, defined_args a ->
  fast_sides t a = Ok (x, y) -> p_cmp fast t op a = Ok (zcmp op x y).
Proof.
  intros t op a x y D H. apply defined_args_raw in D as [Dl Dr].
  assert (G : exists b, p_cmp fast t op a = Ok b).
  { destruct a as [l r|l z|z l]; cbn [lraw rraw den fast_sides] in *; inv_all;
    destruct op; match goal with |- exists b, ?e = Ok b => let G := fresh in
      remember e as G eqn:HG end; unfold_cmp HG;
    rewrite ?is_undefined_den, ?is_defined_den in HG by auto; cbn [orb] in HG;
    repeat (first [progress cbn [bind] in HG
       | match goal with E : ?x = Ok _ |- _ =>
           match type of HG with context [bind x _] => rewrite E in HG end end]);
    subst; eauto. }
  destruct G as [b G]. rewrite G. apply fast_cmp_sides in G as [x' [y' [E ->]]].
  - now assert (x' = x /\ y' = y) as [-> ->] by (split; congruence).
  - now apply defined_args_raw.
Qed.

(** A signed representation wide enough for any bound. *)
Lemma big_signed : forall t, wf_rep t -> exists t', wf_rep t' /\ rsigned t' = true /\ rmax t <= rmax t'.
Proof.
  intros t W. exists (mkRep true (rbits t + 1)). unfold wf_rep, rmax in *. cbn [rsigned rbits].
  repeat split; [lia|]. replace (rbits t + 1 - 1) with (rbits t) by lia.
  destruct (rsigned t); [|lia].
  assert (2 ^ (rbits t - 1) <= 2 ^ rbits t) by (apply Z.pow_le_mono_r; lia). lia.
Qed.

Lemma unsigned_positive : forall t a, rsigned t = false -> wf_args t a -> defined_args a -> positive_dens a.
Proof.
  intros t a S A D. apply defined_args_raw in D as [Dl Dr].
  destruct a as [l r|l z|z r]; cbn in *; destruct A as [A1 A2].
  - split; [apply (den_pos_unsigned t l)|apply (den_pos_unsigned t r)]; auto.
  - apply (den_pos_unsigned t l); auto.
  - apply (den_pos_unsigned t r); auto.
Qed.

Lemma zsafe_exact : forall op a, defined_args a ->
  (is_eq_op op = true \/ positive_dens a \/ exists l r, a = RR l r) ->
  zcmp op (fst (zsafe a)) (snd (zsafe a)) = exact_cmp_opt op (left_value a) (right_value a).
Proof.
  intros op a D C.
  assert (exists B, 0 <= B /\ args_bounded B a) as [B [HB0 HB]].
  { destruct a as [l r|l z|z l].
    - exists (Z.abs (num l) + Z.abs (den l) + Z.abs (num r) + Z.abs (den r)). cbn; unfold raw_bounded; lia.
    - exists (Z.abs (num l) + Z.abs (den l) + Z.abs z). cbn; unfold raw_bounded; lia.
    - exists (Z.abs (num l) + Z.abs (den l) + Z.abs z). cbn; unfold raw_bounded; lia. }
  assert (exists t, wf_rep t /\ rsigned t = true /\ B * B <= rmax t) as [t [W [S M]]].
  { exists (mkRep true (B * B + 33)). unfold wf_rep, rmax; cbn [rsigned rbits]. repeat split; [nia|].
    pose proof (Z.pow_gt_lin_r 2 (B * B + 33 - 1)). nia. }
  eapply (safe_sides_exact t); eauto.
  rewrite (safe_sides_total t a B); auto; [|congruence]. now destruct (zsafe a).
Qed.

Lemma zfast_exact : forall op a, defined_args a ->
  (is_eq_op op = true \/ positive_dens a \/ exists l r, a = RR l r /\ 0 < den l * den r) ->
  zcmp op (fst (zfast a)) (snd (zfast a)) = exact_cmp_opt op (left_value a) (right_value a).
Proof.
  intros op a D C.
  assert (exists B, 0 <= B /\ args_bounded B a) as [B [HB0 HB]].
  { destruct a as [l r|l z|z l].
    - exists (Z.abs (num l) + Z.abs (den l) + Z.abs (num r) + Z.abs (den r)). cbn; unfold raw_bounded; lia.
    - exists (Z.abs (num l) + Z.abs (den l) + Z.abs z). cbn; unfold raw_bounded; lia.
    - exists (Z.abs (num l) + Z.abs (den l) + Z.abs z). cbn; unfold raw_bounded; lia. }
  assert (exists t, wf_rep t /\ rsigned t = true /\ B * B <= rmax t) as [t [W [S M]]].
  { exists (mkRep true (B * B + 33)). unfold wf_rep, rmax; cbn [rsigned rbits]. repeat split; [nia|].
    pose proof (Z.pow_gt_lin_r 2 (B * B + 33 - 1)). nia. }
  eapply (fast_sides_exact t); eauto.
  rewrite (fast_sides_total t a B); auto; [|congruence]. now destruct (zfast a).
Qed.

Lemma safe_cmp_undef_exec : forall t op a, wf_rep t -> ~ defined_args a ->
  exists b, p_cmp safe t op a = Ok b.
Proof.
  intros t op a W D. apply undefined_args_raw in D.
  assert (Z0 : m_mul t 0 0 = Ok 0 /\ forall z, m_mul t z 0 = Ok 0).
  { assert (forall z, m_mul t z 0 = Ok 0); [|auto]. intros z. unfold m_mul. rewrite Z.mul_0_r.
    apply arith_in; auto. apply in_rep_abs; auto; pose proof (rmax_big t W); lia. }
  destruct Z0 as [_ Z0].
  destruct op, a as [l r|l z|z l]; cbn [lraw rraw den] in D;
    match goal with |- exists b, ?e = Ok b => let G := fresh in
      remember e as G eqn:HG end; unfold_cmp HG;
    destruct D as [D|D]; try discriminate;
    rewrite ?(is_undefined_zero _ D) in HG; rewrite ?orb_true_r in HG; cbn [orb] in HG;
    rewrite ?D, ?Z0 in HG; cbn [bind] in HG; subst; eauto.
Qed.

Lemma fast_cmp_undef_exec : forall t op a x y, fast_sides t a = Ok (x, y) ->
  exists b, p_cmp fast t op a = Ok b.
Proof.
  intros t op a x y H.
  destruct a as [l r|l z|z l]; cbn [fast_sides] in *; inv_all;
    destruct op; match goal with |- exists b, ?e = Ok b => let G := fresh in
      remember e as G eqn:HG end; unfold_cmp HG;
    repeat (first [progress cbn [bind] in HG
       | match goal with E : ?x = Ok _ |- _ =>
           match type of HG with context [bind x _] => rewrite E in HG end end]);
    subst; eauto.
Qed.

Lemma denote_cmp_undef_total : forall o t op a B, wf_rep t -> wf_args t a ->
  args_bounded B a -> B <= rmax t -> B * B <= rmax t -> ~ defined_args a ->
  exists b, p_cmp (denote o) t op a = Ok b.
Proof.
  induction o as [| |o IH m|o IH m]; intros t op a B W A HA HB HBB D; cbn [denote].
  - now apply safe_cmp_undef_exec.
  - apply (fast_cmp_undef_exec t op a (fst (zfast a)) (snd (zfast a))).
    rewrite (fast_sides_total t a B); auto. now destruct (zfast a).
  - destruct (reduce_args_total t a m B) as [b [E1 E2]]; auto.
    rewrite ri_cmp_eq, E1. cbn [bind]. apply reduce_args_spec in E1 as [W' R]; auto.
    apply (IH t op b B); auto. now rewrite (args_reduce_defined _ _ _ R).
  - rewrite ro_cmp_eq. eauto.
Qed.

Lemma denote_cmp_def_total : forall o t op a B, wf_rep t -> wf_args t a ->
  args_bounded B a -> B <= rmax t -> B * B <= rmax t -> defined_args a ->
  (is_eq_op op = true \/ order_domain o a) ->
  p_cmp (denote o) t op a = Ok (exact_cmp_opt op (left_value a) (right_value a)).
Proof.
  induction o as [| |o IH m|o IH m]; intros t op a B W A HA HB HBB D C; cbn [denote].
  - rewrite <- zsafe_exact; auto.
    + apply safe_cmp_exec; auto. rewrite (safe_sides_total t a B); auto. now destruct (zsafe a).
    + destruct C as [C|[C|[C|C]]]; auto; [discriminate|]. destruct a; try tauto; eauto.
  - rewrite <- zfast_exact; auto.
    + apply fast_cmp_exec; auto. rewrite (fast_sides_total t a B); auto. now destruct (zfast a).
    + destruct C as [C|[C|[C|C]]]; auto; [discriminate|]. destruct a; try tauto; eauto.
      destruct C; [discriminate|]. right; right; eauto.
  - destruct (reduce_args_total t a m B) as [b [E1 E2]]; auto.
    rewrite ri_cmp_eq, E1. cbn [bind]. apply reduce_args_spec in E1 as [W' R]; auto.
    rewrite (IH t op b B); auto.
    + now rewrite (args_reduce_left _ _ _ R), (args_reduce_right _ _ _ R).
    + now rewrite (args_reduce_defined _ _ _ R).
    + destruct C as [C|C]; [now left|right].
      destruct m; [now apply order_domain_positive, (args_reduce_normal _ _ R)|].
      destruct C as [C|[C|C]].
      * now left.
      * apply order_domain_positive. eapply args_reduce_positive; eauto.
      * right; right. destruct a as [l r| |]; try tauto. destruct C as [C|C].
        -- destruct b; cbn in R; tauto.
        -- destruct (args_reduce_same_sign _ _ _ R C) as [l' [r' [-> P]]]. now right.
  - rewrite ro_cmp_eq. apply (IH t op a B); auto.
Qed.

(** Every comparison of every policy, on any representation, is free of
    undefined behaviour and exact when the square of the largest component
    fits. *)
Theorem denote_cmp_total : forall o t op a B, wf_rep t -> wf_args t a ->
  args_bounded B a -> B <= rmax t -> B * B <= rmax t ->
  (is_eq_op op = true \/ order_domain o a) ->
  p_cmp (denote o) t op a = Ok (exact_cmp_opt op (left_value a) (right_value a)).
Proof.
  intros o t op a B W A HA HB HBB C.
  destruct (left_value a) eqn:L, (right_value a) eqn:R.
  1:{ rewrite <- L, <- R. apply (denote_cmp_def_total o t op a B); auto. split; congruence. }
  all: assert (D : ~ defined_args a) by (intros []; congruence);
    destruct (denote_cmp_undef_total o t op a B) as [b E]; auto; rewrite E;
    apply denote_cmp_undefined in E; subst; auto.
Qed.
