(** Lemmas about continued fractions. *)

From Coq Require Import ZArith QArith List Bool Lia Znumtheory.
From Verif Require Import Machine Raw Ops Spec Fraction Fmath Fmath_spec Mixed_spec Cfrac Cfrac_spec.
From Verif Require Import Machine_proofs Value_proofs Ops_proofs Algebra_proofs Total_proofs Fraction_proofs Fmath_proofs Literals_proofs Tight_proofs Defined_proofs.
Import ListNotations.
Open Scope Z_scope.

(** Euclid's algorithm with quotients towards zero. *)
Inductive euclid_list : Z -> Z -> list Z -> Prop :=
| ElLast : forall n d, Z.rem n d = 0 -> euclid_list n d [Z.quot n d]
| ElMore : forall n d l, Z.rem n d <> 0 -> euclid_list d (Z.rem n d) l -> euclid_list n d (Z.quot n d :: l).

Lemma rem_lt : forall n d, d <> 0 -> Z.abs (Z.rem n d) < Z.abs d.
Proof. intros n d D. apply Z.rem_bound_abs. exact D. Qed.

Lemma rem_half : forall n d, d <> 0 -> Z.rem n d <> 0 -> Z.abs d <= Z.abs n -> 2 * Z.abs (Z.rem n d) < Z.abs n.
Proof.
  intros n d D R L. pose proof (Z.rem_abs n d D) as A. pose proof (rem_lt n d D) as B.
  pose proof (Z.quot_rem' (Z.abs n) (Z.abs d)) as E.
  assert (Q : 1 <= Z.quot (Z.abs n) (Z.abs d)).
  { apply Z.quot_le_lower_bound; lia. }
  rewrite A in E. nia.
Qed.

Lemma euclid_short : forall k n d, d <> 0 -> Z.abs d < 2 ^ Z.of_nat (S k) ->
  exists l, euclid_list n d l /\ (length l <= 2 * k + 2)%nat.
Proof.
  induction k as [|k IH]; intros n d D B.
  - change (2 ^ Z.of_nat 1) with 2 in B. exists [Z.quot n d]. split; [|cbn; lia]. apply ElLast.
    pose proof (rem_lt n d D). lia.
  - destruct (Z.eq_dec (Z.rem n d) 0) as [R|R].
    { exists [Z.quot n d]. split; [now apply ElLast|cbn; lia]. }
    pose proof (rem_lt n d D) as L1.
    destruct (Z.eq_dec (Z.rem d (Z.rem n d)) 0) as [R2|R2].
    { eexists [_; _]. split; [apply ElMore; [exact R|]; apply ElLast; exact R2|cbn; lia]. }
    pose proof (rem_half d (Z.rem n d) R R2 ltac:(lia)) as H.
    destruct (IH (Z.rem n d) (Z.rem d (Z.rem n d)) R2) as [l [E L]].
    { rewrite (Nat2Z.inj_succ (S k)), Z.pow_succ_r in B by lia. lia. }
    exists (Z.quot n d :: Z.quot d (Z.rem n d) :: l). split; [|cbn; lia].
    apply ElMore; auto. now apply ElMore.
Qed.

Lemma euclid_exists : forall n d, d <> 0 ->
  exists l, euclid_list n d l /\ Z.of_nat (length l) <= 2 * Z.log2 (Z.abs d) + 2.
Proof.
  intros n d D. pose proof (Z.log2_nonneg (Z.abs d)) as P.
  destruct (euclid_short (Z.to_nat (Z.log2 (Z.abs d))) n d D) as [l [E L]].
  - rewrite Nat2Z.inj_succ, Z2Nat.id by exact P. apply Z.log2_spec. lia.
  - exists l. split; [exact E|]. lia.
Qed.

Lemma euclid_unique : forall n d l, euclid_list n d l -> forall l', euclid_list n d l' -> l = l'.
Proof.
  induction 1 as [n d R|n d l R _ IH]; intros l' H; inversion H; subst; try contradiction; auto.
  f_equal. now apply IH.
Qed.

(** The list depends only on the quotient of the two numbers. *)
Lemma cross_quot : forall n d n' d', d <> 0 -> d' <> 0 -> n * d' = n' * d -> Z.quot n d = Z.quot n' d'.
Proof.
  intros n d n' d' D D' E. rewrite <- (Z.quot_mul_cancel_r n d d') by auto. rewrite E, (Z.mul_comm d d').
  now apply Z.quot_mul_cancel_r.
Qed.
Lemma cross_rem : forall n d n' d', d <> 0 -> d' <> 0 -> n * d' = n' * d -> Z.rem n d * d' = Z.rem n' d' * d.
Proof.
  intros n d n' d' D D' E. pose proof (cross_quot n d n' d' D D' E) as Q.
  pose proof (Z.quot_rem' n d). pose proof (Z.quot_rem' n' d'). rewrite Q in *. nia.
Qed.
Lemma euclid_cross : forall n d l, euclid_list n d l -> forall n' d', d <> 0 -> d' <> 0 -> n * d' = n' * d -> euclid_list n' d' l.
Proof.
  induction 1 as [n d R|n d l R H IH]; intros n' d' D D' E; pose proof (cross_rem n d n' d' D D' E) as C;
    rewrite (cross_quot n d n' d' D D' E).
  - apply ElLast. nia.
  - assert (R' : Z.rem n' d' <> 0) by nia. apply ElMore; auto. apply IH; auto; nia.
Qed.

(** Euclid's list is the continued fraction. *)
Lemma div_int : forall n d a, d <> 0 -> (inject_Z n / inject_Z d == inject_Z a)%Q <-> n = a * d.
Proof.
  intros n d a D. assert (D' : ~ (inject_Z d == 0)%Q) by (intros H; apply D; unfold Qeq in H; cbn in H; lia).
  split.
  - intros H. assert (E : (inject_Z n == inject_Z a * inject_Z d)%Q) by (rewrite <- H; now field).
    rewrite <- inject_Z_mult in E. unfold Qeq in E. cbn in E. lia.
  - intros ->. rewrite inject_Z_mult. now field.
Qed.

Lemma euclid_cf : forall n d l, euclid_list n d l -> d <> 0 -> is_cf (inject_Z n / inject_Z d) l.
Proof.
  induction 1 as [n d R|n d l R H IH]; intros D.
  - apply CfLast. apply div_int; auto. pose proof (Z.quot_rem' n d). lia.
  - apply CfMore with (q' := (inject_Z d / inject_Z (Z.rem n d))%Q).
    + now apply quot_is_trunc.
    + rewrite div_int by auto. pose proof (Z.quot_rem' n d). lia.
    + pose proof (Z.quot_rem' n d) as E.
      assert (D' : ~ (inject_Z d == 0)%Q) by (intros X; apply D; unfold Qeq in X; cbn in X; lia).
      assert (R' : ~ (inject_Z (Z.rem n d) == 0)%Q) by (intros X; apply R; unfold Qeq in X; cbn in X; lia).
      assert (E' : (inject_Z n == inject_Z d * inject_Z (Z.quot n d) + inject_Z (Z.rem n d))%Q).
      { rewrite <- inject_Z_mult, <- inject_Z_plus, <- E. reflexivity. }
      rewrite E'. field. auto.
    + now apply IH.
Qed.

Lemma is_trunc_proper : forall a q p, (q == p)%Q -> is_trunc a q -> is_trunc a p.
Proof. intros a q p E [H1 H2]. split; intros L; rewrite <- E in *; auto. Qed.

Lemma is_cf_proper : forall q l, is_cf q l -> forall p, (q == p)%Q -> is_cf p l.
Proof.
  induction 1 as [q a H|q a q' l T N I H IH]; intros p E.
  - apply CfLast. now rewrite <- E.
  - apply CfMore with (q' := q'); auto.
    + now apply (is_trunc_proper a q).
    + now rewrite <- E.
    + now rewrite <- E.
Qed.

Lemma cf_nonempty : forall q l, is_cf q l -> l <> [].
Proof. intros q l H. inversion H; discriminate. Qed.

Lemma cf_is_value : forall q l, is_cf q l -> (cf_value l == q)%Q.
Proof.
  induction 1 as [q a H|q a q' l T N I H IH].
  - cbn. now rewrite H.
  - destruct l as [|b l]; [now apply cf_nonempty in H|]. 
    change (cf_value (a :: b :: l)) with (inject_Z a + / cf_value (b :: l))%Q. rewrite IH.
    assert (Z1 : ~ (q' == 0)%Q) by (intros X; rewrite X in I; ring_simplify in I; discriminate I).
    assert (E : (q - inject_Z a == / q')%Q).
    { apply (Qmult_inj_l _ _ q' Z1). rewrite I. now field. }
    rewrite <- E. ring.
Qed.

Lemma trunc_unique : forall a b q, is_trunc a q -> is_trunc b q -> a = b.
Proof.
  intros a b q [A1 A2] [B1 B2]. destruct (Qlt_le_dec 0 q) as [L|L].
  - apply Qlt_le_weak in L. destruct (A1 L) as [X1 X2], (B1 L) as [Y1 Y2].
    pose proof (Qle_lt_trans _ _ _ X1 Y2) as U. pose proof (Qle_lt_trans _ _ _ Y1 X2) as V.
    rewrite <- Zlt_Qlt in U, V. lia.
  - destruct (A2 L) as [X1 X2], (B2 L) as [Y1 Y2].
    pose proof (Qlt_le_trans _ _ _ X1 Y2) as U. pose proof (Qlt_le_trans _ _ _ Y1 X2) as V.
    rewrite <- Zlt_Qlt in U, V. lia.
Qed.

Lemma trunc_int : forall a, is_trunc a (inject_Z a).
Proof. intros a. split; intros _; split; rewrite <- ?Zle_Qle, <- ?Zlt_Qlt; lia. Qed.

Lemma cf_unique : forall q l, is_cf q l -> forall l', is_cf q l' -> l = l'.
Proof.
  induction 1 as [q a H|q a q' l T N I H IH]; intros l' H'; inversion H' as [p b B|p b p' k T' N' I' K]; subst.
  - f_equal. apply (trunc_unique a b q); [apply (is_trunc_proper a (inject_Z a))|apply (is_trunc_proper b (inject_Z b))];
      auto using trunc_int; now symmetry.
  - exfalso. apply N'. rewrite H.
    rewrite (trunc_unique b a q T'); [reflexivity|]. apply (is_trunc_proper a (inject_Z a)); [now symmetry|apply trunc_int].
  - exfalso. apply N. rewrite B.
    rewrite (trunc_unique a b q T); [reflexivity|]. apply (is_trunc_proper b (inject_Z b)); [now symmetry|apply trunc_int].
  - pose proof (trunc_unique a b q T T') as ->. f_equal. apply IH. apply (is_cf_proper p' k K).
    assert (Z0 : ~ (q - inject_Z b == 0)%Q) by (intros X; apply N; rewrite <- (Qplus_0_l (inject_Z b)), <- X; ring).
    apply (Qmult_inj_r _ _ (q - inject_Z b) Z0). now rewrite I, I'.
Qed.

(** One round of the loop. *)
Lemma fits_abs : forall t z, signed_rep t -> Z.abs z <= rmax t -> in_rep t z = true.
Proof. intros t z S H. apply range_iff; auto. lia. Qed.

Lemma sub_trunc : forall o t v, signed_rep t -> raw_bounded (rmax t) v -> den v <> 0 ->
  exists r, p_arith (denote o) t Minus (RI v (Z.quot (num v) (den v))) = Ok r /\ raw_bounded (rmax t) r /\ den r <> 0 /\ num r * den v = Z.rem (num v) (den v) * den r.
Proof.
  intros o t v SR B D. pose proof SR as [W S].
  remember (Z.quot (num v) (den v)) as z eqn:Z0. revert v B D Z0.
  assert (base : forall v, raw_bounded (rmax t) v -> den v <> 0 -> z = Z.quot (num v) (den v) ->
    exists r, safe_minus_ri t v z = Ok r /\ raw_bounded (rmax t) r /\ den r <> 0 /\ num r * den v = Z.rem (num v) (den v) * den r).
  { intros v [B1 B2] D ->. pose proof (Z.quot_rem' (num v) (den v)) as E.
    pose proof (rem_lt (num v) (den v) D) as L.
    assert (P : Z.abs (Z.quot (num v) (den v) * den v) <= Z.abs (num v)).
    { pose proof (Z.rem_sign_mul (num v) (den v) D) as G.
      pose proof (Z.quot_rem' (Z.abs (num v)) (Z.abs (den v))) as F.
      rewrite Z.rem_abs, Z.quot_abs in F by auto. rewrite Z.abs_mul. lia. }
    unfold safe_minus_ri, m_mul, m_sub. rewrite arith_iff, (fits_abs t) by (auto; lia). cbn [bind].
    replace (num v - Z.quot (num v) (den v) * den v) with (Z.rem (num v) (den v)) by lia.
    rewrite arith_iff, (fits_abs t) by (auto; lia). cbn [bind].
    eexists. split; [reflexivity|]. cbn [num den]. split; [split; cbn [num den]; lia|]. split; [exact D|ring]. }
  induction o as [| |o IH m|o IH m]; intros v B D Z0.
  - exact (base v B D Z0).
  - exact (base v B D Z0).
  - cbn [denote]. rewrite ri_arith_eq. cbn [reduce_args].
    destruct (reduce_total t v m W (bounded_wf t v SR B) (proj1 B) (proj2 B)) as [v' R]. rewrite R. cbn [bind].
    destruct (reduce_spec _ _ _ _ W (bounded_wf t v SR B) R) as [_ [RT _]].
    pose proof (reduces_bound _ _ _ RT) as [Bn Bd]. destruct B as [B1 B2].
    destruct RT as [[? _]|[_ [g [G0 [N1 [D1 _]]]]]]; [contradiction|].
    assert (D' : den v' <> 0) by nia.
    destruct (IH v') as [r [R1 [R2 [R3 R4]]]]; [split; lia|exact D'| |].
    + rewrite Z0. apply cross_quot; auto. rewrite N1, D1. ring.
    + exists r. split; [exact R1|]. split; [exact R2|]. split; [exact R3|].
      pose proof (cross_rem (num v) (den v) (num v') (den v') D D' ltac:(rewrite N1, D1; ring)) as C.
      apply (Z.mul_reg_r _ _ (den v') D'). 
      transitivity (num r * den v' * den v); [ring|]. rewrite R4. rewrite <- Z.mul_assoc, (Z.mul_comm (den r)), Z.mul_assoc, <- C. ring.
  - cbn [denote]. rewrite ro_arith_eq. destruct (IH v B D Z0) as [r [R1 [R2 [R3 R4]]]]. rewrite R1. cbn [bind].
    destruct (reduce_total t r m W (bounded_wf t r SR R2) (proj1 R2) (proj2 R2)) as [r' R]. 
    destruct (reduce_spec _ _ _ _ W (bounded_wf t r SR R2) R) as [_ [RT _]].
    pose proof (reduces_bound _ _ _ RT) as [Bn Bd]. destruct R2 as [B1 B2].
    destruct RT as [[? _]|[_ [g [G0 [N1 [D1 _]]]]]]; [contradiction|].
    exists r'. split; [exact R|]. split; [split; lia|]. split; [nia|].
    apply (Z.mul_reg_l _ _ g G0). rewrite !Z.mul_assoc, <- N1, R4, D1. ring.
Qed.

Lemma f_arith_ri : forall o t op v z, signed_rep t -> raw_bounded (rmax t) v -> in_rep t z = true ->
  f_arith (denote o) t t op (RI v z) = p_arith (denote o) t op (RI v z).
Proof.
  intros o t op v z SR B Z0. pose proof SR as [W S]. unfold f_arith, common_args. rewrite common_self. rewrite conv_raw_id, conv_int_id; auto. now apply bounded_wf.
Qed.

Lemma trunc_bounded : forall t v, signed_rep t -> raw_bounded (rmax t) v -> den v <> 0 ->
  f_trunc t v = Ok (Z.quot (num v) (den v)) /\ in_rep t (Z.quot (num v) (den v)) = true.
Proof.
  intros t v SR [B1 B2] D. pose proof SR as [W S].
  assert (P : Z.abs (Z.quot (num v) (den v)) <= Z.abs (num v)).
  { rewrite <- Z.quot_abs by auto. apply Z.quot_le_upper_bound; nia. }
  assert (I : in_rep t (Z.quot (num v) (den v)) = true) by (apply fits_abs; auto; lia).
  split; [|exact I]. unfold f_trunc, m_div. apply Z.eqb_neq in D as ->. now rewrite arith_iff, I by auto.
Qed.

Lemma quotients_run : forall o t n d l, euclid_list n d l -> forall v fuel, signed_rep t -> raw_bounded (rmax t) v ->
  den v <> 0 -> d <> 0 -> num v * d = n * den v -> (length l <= fuel)%nat -> quotients (denote o) t fuel v = Some (Ok l).
Proof.
  intros o t. induction 1 as [n d R|n d l R H IH]; intros v fuel SR B D D0 E F; (destruct fuel as [|fuel]; [cbn in F; lia|]);
    cbn [quotients]; destruct (trunc_bounded t v SR B D) as [T I]; rewrite T, f_arith_ri by auto;
    destruct (sub_trunc o t v SR B D) as [r [R1 [R2 [R3 R4]]]]; rewrite R1;
    pose proof (cross_rem _ _ _ _ D D0 E) as C; rewrite (cross_quot _ _ _ _ D D0 E).
  - assert (Z0 : num r = 0) by nia. unfold is_zero, is_defined, is_undefined. rewrite Z0. apply Z.eqb_neq in R3 as ->. reflexivity.
  - assert (Z0 : num r <> 0) by nia.
    replace (is_zero r) with false by (unfold is_zero; apply Z.eqb_neq in Z0 as ->; now rewrite andb_false_r).
    rewrite (IH (reciprocal r) fuel); auto.
    + destruct R2. now split.
    + cbn [reciprocal num den]. apply (Z.mul_reg_r _ _ (den v) D).
      transitivity (den r * (Z.rem n d * den v)); [ring|]. rewrite <- C.
      transitivity (Z.rem (num v) (den v) * den r * d); [ring|]. rewrite <- R4. ring.
    + cbn [length] in F. lia.
Qed.

(** More rounds change nothing. *)
Lemma quotients_more : forall p t fuel v r, quotients p t fuel v = Some r -> forall f, (fuel <= f)%nat -> quotients p t f v = Some r.
Proof.
  intros p t. induction fuel as [|fuel IH]; intros v r H f L; [discriminate H|]. destruct f as [|f]; [lia|].
  cbn [quotients] in *. destruct (f_trunc t v) as [a|u]; [|exact H]. destruct (f_arith p t t Minus (RI v a)) as [y|u]; [|exact H].
  destruct (is_zero y); [exact H|]. destruct (quotients p t fuel (reciprocal y)) as [[l|u]|] eqn:Q; try discriminate H;
  rewrite (IH _ _ Q f) by lia; exact H.
Qed.

(** Adding a quotient. *)
Definition upto (s n d : Z) : raw := mkRaw (s * n) (s * d).

Lemma reduce_coprime : forall t s n d m, signed_rep t -> usign s -> Z.abs n <= rmax t -> Z.abs d <= rmax t -> d <> 0 ->
  Z.gcd n d = 1 -> exists s', usign s' /\ reduce t (upto s n d) m = Ok (upto s' n d).
Proof.
  intros t s n d m SR U Bn Bd D G. pose proof SR as [W S].
  assert (B : raw_bounded (rmax t) (upto s n d)) by (split; cbn [upto num den]; destruct U as [->| ->]; lia).
  destruct (reduce_total t _ m W (bounded_wf t _ SR B) (proj1 B) (proj2 B)) as [r R].
  destruct (reduce_spec _ _ _ _ W (bounded_wf t _ SR B) R) as [_ [RT _]].
  destruct RT as [[X _]|[_ [g [G0 [N1 [D1 _]]]]]]; cbn [upto num den] in *.
  { exfalso. destruct U as [->| ->]; lia. }
  assert (Ug : g = 1 \/ g = -1).
  { assert (Dv : (g | 1)).
    { rewrite <- G. apply Z.gcd_greatest; [exists (s * num r)|exists (s * den r)]; destruct U as [->| ->]; lia. }
    destruct (Z.divide_1_r g Dv); auto. }
  rewrite R. exists (s * g). split; [destruct U as [->| ->], Ug as [->| ->]; unfold usign; lia|].
  f_equal. destruct r as [rn rd]. unfold upto. cbn [num den] in *. f_equal; destruct U as [->| ->], Ug as [->| ->]; lia.
Qed.

Lemma add_quotient : forall o t a n d, signed_rep t -> d <> 0 -> Z.gcd n d = 1 -> Z.abs n <= rmax t -> Z.abs d <= rmax t ->
  Z.abs (a * d) <= rmax t -> Z.abs (n + a * d) <= rmax t -> forall s, usign s ->
  exists s', usign s' /\ p_arith (denote o) t Plus (IR a (upto s n d)) = Ok (upto s' (n + a * d) d).
Proof.
  intros o t a n d SR D G Bn Bd Bp Bs. pose proof SR as [W S].
  assert (base : forall s, usign s -> exists s', usign s' /\ safe_plus_ri t (upto s n d) a = Ok (upto s' (n + a * d) d)).
  { intros s U. exists s. split; [exact U|]. unfold safe_plus_ri, upto, m_mul, m_add. cbn [num den].
    rewrite arith_iff, (fits_abs t) by (auto; destruct U as [->| ->]; lia). cbn [bind].
    rewrite arith_iff, (fits_abs t) by (auto; destruct U as [->| ->]; lia). cbn [bind]. f_equal. f_equal. ring. }
  induction o as [| |o IH m|o IH m]; intros s U.
  - exact (base s U).
  - exact (base s U).
  - cbn [denote]. rewrite ri_arith_eq. cbn [reduce_args].
    destruct (reduce_coprime t s n d m SR U Bn Bd D G) as [s1 [U1 R]]. rewrite R. cbn [bind]. now apply IH.
  - cbn [denote]. rewrite ro_arith_eq. destruct (IH s U) as [s1 [U1 R]]. rewrite R. cbn [bind].
    apply reduce_coprime; auto. rewrite Z.gcd_comm, Z.add_comm, (Z.mul_comm a d), Z.add_comm, (Z.mul_comm d a), Z.gcd_add_mult_diag_r, Z.gcd_comm. exact G.
Qed.

Lemma f_arith_ir : forall o t op z v, signed_rep t -> raw_bounded (rmax t) v -> in_rep t z = true ->
  f_arith (denote o) t t op (IR z v) = p_arith (denote o) t op (IR z v).
Proof.
  intros o t op z v SR B Z0. pose proof SR as [W S]. unfold f_arith, common_args. rewrite common_self.
  rewrite conv_raw_id, conv_int_id; auto. now apply bounded_wf.
Qed.

Lemma euclid_nonempty : forall n d l, euclid_list n d l -> l <> [].
Proof. intros n d l H. inversion H; discriminate. Qed.

Lemma gcd_rem : forall n d, Z.gcd d (Z.rem n d) = Z.gcd n d.
Proof.
  intros n d. rewrite (Z.gcd_comm n d). pose proof (Z.quot_rem' n d) as E.
  replace (Z.gcd d n) with (Z.gcd d (Z.rem n d + Z.quot n d * d)) by (f_equal; lia).
  now rewrite Z.gcd_add_mult_diag_r.
Qed.

Lemma rebuild_run : forall o t n d l, euclid_list n d l -> signed_rep t -> d <> 0 -> Z.gcd n d = 1 ->
  Z.abs n <= rmax t -> Z.abs d <= rmax t -> exists s, usign s /\ rebuild (denote o) t l = Ok (upto s n d) /\ (output_canonical o = true -> 0 < s * d).
Proof.
  intros o t. induction 1 as [n d R|n d l R H IH]; intros SR D G Bn Bd; pose proof (Z.quot_rem' n d) as E.
  - assert (Dv : (d | 1)). { rewrite <- G. apply Z.gcd_greatest; [exists (Z.quot n d); lia|apply Z.divide_refl]. }
    cbn [rebuild]. destruct (Z.divide_1_r d Dv) as [->| ->].
    + exists 1. split; [left; reflexivity|]. rewrite Z.quot_1_r. unfold f_of_int, upto. rewrite !Z.mul_1_l. split; [reflexivity|lia].
    + exists (-1). split; [right; reflexivity|]. change (-1) with (- (1)) at 1. rewrite Z.quot_opp_r, Z.quot_1_r by lia. split; [reflexivity|lia].
  - destruct IH as [s [U [IH _]]]; auto.
    { rewrite gcd_rem; auto. }
    { pose proof (rem_lt n d D). lia. }
    destruct l as [|b l]; [now apply euclid_nonempty in H|].
    change (rebuild (denote o) t (Z.quot n d :: b :: l)) with
      (do x <- rebuild (denote o) t (b :: l); f_arith (denote o) t t Plus (IR (Z.quot n d) (reciprocal x))).
    rewrite IH. cbn [bind]. change (reciprocal (upto s d (Z.rem n d))) with (upto s (Z.rem n d) d).
    pose proof (rem_lt n d D) as L.
    assert (P : Z.abs (Z.quot n d * d) <= Z.abs n).
    { pose proof (Z.quot_rem' (Z.abs n) (Z.abs d)) as F. rewrite Z.rem_abs, Z.quot_abs in F by auto. rewrite Z.abs_mul. lia. }
    assert (Q : Z.abs (Z.quot n d) <= Z.abs n). { rewrite Z.abs_mul in P. nia. }
    rewrite f_arith_ir; auto.
    + destruct (add_quotient o t (Z.quot n d) (Z.rem n d) d) with (s := s) as [s' [U' A]]; auto; try lia.
      2: { exists s'. split; [exact U'|]. rewrite A. replace (Z.rem n d + Z.quot n d * d) with n in * by lia. split; [reflexivity|].
           intros O. assert (C : canonical (upto s' n d)).
           { eapply (denote_canonical o t Plus (IR (Z.quot n d) (upto s (Z.rem n d) d))); [exact (proj1 SR)| |exact O|exact A].
             split; [apply fits_abs; auto; lia|]. apply bounded_wf; auto. split; cbn [upto num den]; destruct U as [->| ->]; lia. }
           destruct C as [[_ C]|[C _]]; cbn [upto den] in C; [exfalso; destruct U' as [->| ->]; lia|exact C]. }
      rewrite Z.gcd_comm, gcd_rem; auto.
    + split; cbn [upto num den]; destruct U as [->| ->]; lia.
    + apply fits_abs; auto. lia.
Qed.
