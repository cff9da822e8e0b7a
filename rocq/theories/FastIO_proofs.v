(** When the operations of [fast_reduced_io] are defined. *)

From Coq Require Import ZArith QArith List Bool Lia.
From Verif Require Import Machine Raw Ops Spec Fraction Fraction_spec Mixed_spec Defined_spec FastIO_spec.
From Verif Require Import Machine_proofs Value_proofs Ops_proofs Algebra_proofs Arith_claims Tight_proofs Fraction_proofs Laws_proofs Defined_proofs.
Open Scope Z_scope.

Lemma fio_rr : forall t op l r, p_arith (denote fast_reduced_io) t op (RR l r) =
  do l' <- reduce t l ignore_signs_mode;
  do r' <- reduce t r ignore_signs_mode;
  do v <- p_arith fast t op (RR l' r');
  reduce t v normalize_signs_mode.
Proof. intros t [] l r; reflexivity. Qed.
Lemma fio_ri : forall t op l z, p_arith (denote fast_reduced_io) t op (RI l z) =
  do l' <- reduce t l ignore_signs_mode;
  do v <- p_arith fast t op (RI l' z);
  reduce t v normalize_signs_mode.
Proof. intros t [] l r; reflexivity. Qed.
Lemma fio_ir : forall t op z r, p_arith (denote fast_reduced_io) t op (IR z r) =
  do r' <- reduce t r ignore_signs_mode;
  do v <- p_arith fast t op (IR z r');
  reduce t v normalize_signs_mode.
Proof. intros t [] l r; reflexivity. Qed.
Lemma fio_cmp_rr : forall t op l r, p_cmp (denote fast_reduced_io) t op (RR l r) =
  do l' <- reduce t l ignore_signs_mode;
  do r' <- reduce t r ignore_signs_mode;
  p_cmp fast t op (RR l' r').
Proof. intros t [] l r; reflexivity. Qed.
Lemma fio_cmp_ri : forall t op l z, p_cmp (denote fast_reduced_io) t op (RI l z) =
  do l' <- reduce t l ignore_signs_mode;
  p_cmp fast t op (RI l' z).
Proof. intros t [] l r; reflexivity. Qed.
Lemma fio_cmp_ir : forall t op z r, p_cmp (denote fast_reduced_io) t op (IR z r) =
  do r' <- reduce t r ignore_signs_mode;
  p_cmp fast t op (IR z r').
Proof. intros t [] l r; reflexivity. Qed.

Lemma low_zero_den : forall a, low_num a = 0 -> low_den a = 1.
Proof.
  intros a E. pose proof (low_canonical a) as C. rewrite E, Z.gcd_0_l in C. pose proof (low_den_pos a). lia.
Qed.

(** Products of lowest terms that decide whether the arithmetic is defined. *)
Ltac finish_reduce t SR :=
  rewrite reduce_iff; auto; [cbn [num den]; lia|split; cbn [num den]; auto; apply range_iff; auto; lia].

Ltac finish_rem t SR x y :=
  unfold m_rem;
  destruct (Z.eqb_spec y 0); [cbn [bind]; split; [intros [? ?]; discriminate|tauto]|];
  let QR := fresh "QR" in
  pose proof (quot_range t x y SR) as QR; rewrite (arith_iff t (Z.quot x y)) by (apply SR);
  destruct (in_rep t (Z.quot x y)); cbn [bind];
    [pose proof (rem_range t x y SR)|
     split; [intros [? ?]; discriminate|]; intros K; exfalso; assert (false = true); [apply QR; tauto|discriminate]].

Lemma fast_low_iff : forall t op a b, signed_rep t ->
  Z.abs (low_num a) <= rmax t -> low_den a <= rmax t -> Z.abs (low_num b) <= rmax t -> low_den b <= rmax t ->
  ok (do v <- p_arith fast t op (RR (mkRaw (low_num a) (low_den a)) (mkRaw (low_num b) (low_den b)));
      reduce t v normalize_signs_mode) <-> fast_enough (rmax t) op a b.
Proof.
  intros t op a b SR Na Da Nb Db. pose proof SR as [W S].
  pose proof (low_den_pos a) as Pa. pose proof (low_den_pos b) as Pb. pose proof (rmax_big t W) as Mx.
  pose proof (low_zero b) as Z0. pose proof (low_zero_den b) as ZB.
  assert (PD : 0 < low_den a * low_den b) by nia.
  assert (ZY : low_num b = 0 <-> low_num b * low_den a = 0) by nia.
  assert (ZX : low_num b = 0 -> low_num a * low_den b = low_num a) by (intros E; rewrite (ZB E); ring).
  destruct op; cbn [p_arith fast p_plus_rr p_minus_rr p_multiplies_rr p_divides_rr p_modulus_rr fast_enough];
    unfold fast_plus_rr, fast_minus_rr, fast_multiplies_rr, fast_divides_rr, fast_modulus_rr; cbn [num den];
    unfold cross_fits, m_mul, m_add, m_sub; rewrite ?Z0; rewrite ?(Z.mul_comm (low_den a) (low_num b));
    set (x := low_num a * low_den b) in *; set (y := low_num b * low_den a) in *; set (d := low_den a * low_den b) in *;
    set (w := low_num a * low_num b) in *; set (n := low_num a) in *; set (m := low_num b) in *; clearbody x y d w n m.
  - step_arith t SR; [|lia]. step_arith t SR; [|lia]. step_arith t SR; [|lia]. step_arith t SR; [|lia]. finish_reduce t SR.
  - step_arith t SR; [|lia]. step_arith t SR; [|lia]. step_arith t SR; [|lia]. step_arith t SR; [|lia]. finish_reduce t SR.
  - step_arith t SR; [|lia]. step_arith t SR; [|lia]. finish_reduce t SR.
  - step_arith t SR; [|lia]. step_arith t SR; [|lia]. finish_reduce t SR.
  - step_arith t SR; [|lia]. step_arith t SR; [|lia]. finish_rem t SR x y.
    step_arith t SR; [|lia]. finish_reduce t SR.
Qed.

Lemma fast_low_ri_iff : forall t op a z, signed_rep t ->
  Z.abs (low_num a) <= rmax t -> low_den a <= rmax t -> in_rep t z = true ->
  ok (do v <- p_arith fast t op (RI (mkRaw (low_num a) (low_den a)) z);
      reduce t v normalize_signs_mode) <-> fast_enough (rmax t) op a (inject_Z z).
Proof.
  intros t op a z SR Na Da Fz. pose proof SR as [W S]. apply range_iff in Fz; auto.
  pose proof (low_den_pos a) as Pa. pose proof (rmax_big t W) as Mx.
  destruct (low_int z) as [Nz Dz].
  assert (Z0 : (inject_Z z == 0)%Q <-> z = 0) by (rewrite low_zero, Nz; tauto).
  assert (ZY : z = 0 <-> z * low_den a = 0) by nia.
  destruct op; cbn [p_arith fast p_plus_ri p_minus_ri p_multiplies_ri p_divides_ri p_modulus_ri fast_enough];
    unfold fast_plus_ri, fast_minus_ri, fast_multiplies_ri, fast_divides_ri, fast_modulus_ri; cbn [num den];
    unfold cross_fits, m_mul, m_add, m_sub; rewrite ?Nz, ?Dz, ?Z0, ?Z.mul_1_r, ?(Z.mul_comm (low_den a) z);
    set (y := z * low_den a) in *; set (w := low_num a * z) in *; set (n := low_num a) in *; set (d := low_den a) in *; clearbody n d w y.
  - step_arith t SR; [|lia]. step_arith t SR; [|lia]. finish_reduce t SR.
  - step_arith t SR; [|lia]. step_arith t SR; [|lia]. finish_reduce t SR.
  - step_arith t SR; [|lia]. finish_reduce t SR.
  - step_arith t SR; [|lia]. finish_reduce t SR.
  - step_arith t SR; [|lia]. finish_rem t SR n y. finish_reduce t SR.
Qed.

Lemma fast_low_ir_iff : forall t op a z, signed_rep t ->
  Z.abs (low_num a) <= rmax t -> low_den a <= rmax t -> in_rep t z = true ->
  ok (do v <- p_arith fast t op (IR z (mkRaw (low_num a) (low_den a)));
      reduce t v normalize_signs_mode) <-> fast_enough (rmax t) op (inject_Z z) a.
Proof.
  intros t op a z SR Na Da Fz. pose proof SR as [W S]. apply range_iff in Fz; auto.
  pose proof (low_den_pos a) as Pa. pose proof (rmax_big t W) as Mx.
  destruct (low_int z) as [Nz Dz]. pose proof (low_zero a) as Z0. pose proof (low_zero_den a) as ZB.
  assert (ZX : low_num a = 0 -> z * low_den a = z) by (intros E; rewrite (ZB E); ring).
  destruct op; cbn [p_arith fast p_plus_ir p_minus_ir p_multiplies_ir p_divides_ir p_modulus_ir fast_enough];
    unfold fast_plus_ir, fast_minus_ir, fast_multiplies_ir, fast_divides_ir, fast_modulus_ir, fast_plus_ri, fast_multiplies_ri; cbn [num den];
    unfold cross_fits, m_mul, m_add, m_sub; rewrite ?Nz, ?Dz, ?Z0, ?Z.mul_1_r, ?Z.mul_1_l, ?(Z.mul_comm (low_num a) z);
    set (x := z * low_den a) in *; set (w := z * low_num a) in *; set (n := low_num a) in *; set (d := low_den a) in *; clearbody n d w x.
  - step_arith t SR; [|lia]. step_arith t SR; [|lia]. finish_reduce t SR.
  - step_arith t SR; [|lia]. step_arith t SR; [|lia]. finish_reduce t SR.
  - step_arith t SR; [|lia]. finish_reduce t SR.
  - step_arith t SR; [|lia]. finish_reduce t SR.
  - step_arith t SR; [|lia]. finish_rem t SR x n. finish_reduce t SR.
Qed.

Lemma reduce_low_pos : forall t l a, signed_rep t -> raw_bounded (rmax t) l -> 0 < den l -> value l = Some a ->
  reduce t l ignore_signs_mode = Ok (mkRaw (low_num a) (low_den a)) /\ Z.abs (low_num a) <= rmax t /\ low_den a <= rmax t.
Proof.
  intros t l a SR [Ln Ld] P V. destruct (reduce_low t l a) as [s [U [-> [A1 [A2 E]]]]]; auto.
  rewrite (E P), !Z.mul_1_l. auto.
Qed.

Theorem fio_iff : forall t op l r a b, signed_rep t -> raw_bounded (rmax t) l -> raw_bounded (rmax t) r ->
  0 < den l -> 0 < den r -> value l = Some a -> value r = Some b ->
  (exists x, p_arith (denote fast_reduced_io) t op (RR l r) = Ok x) <-> fast_enough (rmax t) op a b.
Proof.
  intros t op l r a b SR BL BR PL PR VA VB. rewrite fio_rr.
  destruct (reduce_low_pos t l a) as [-> [A1 A2]]; auto. destruct (reduce_low_pos t r b) as [-> [B1 B2]]; auto.
  cbn [bind]. now apply fast_low_iff.
Qed.

Theorem fio_ri_iff : forall t op l z a, signed_rep t -> raw_bounded (rmax t) l -> 0 < den l -> in_rep t z = true ->
  value l = Some a ->
  (exists x, p_arith (denote fast_reduced_io) t op (RI l z) = Ok x) <-> fast_enough (rmax t) op a (inject_Z z).
Proof.
  intros t op l z a SR BL PL F VA. rewrite fio_ri.
  destruct (reduce_low_pos t l a) as [-> [A1 A2]]; auto. cbn [bind]. now apply fast_low_ri_iff.
Qed.

Theorem fio_ir_iff : forall t op l z a, signed_rep t -> raw_bounded (rmax t) l -> 0 < den l -> in_rep t z = true ->
  value l = Some a ->
  (exists x, p_arith (denote fast_reduced_io) t op (IR z l) = Ok x) <-> fast_enough (rmax t) op (inject_Z z) a.
Proof.
  intros t op l z a SR BL PL F VA. rewrite fio_ir.
  destruct (reduce_low_pos t l a) as [-> [A1 A2]]; auto. cbn [bind]. now apply fast_low_ir_iff.
Qed.

Ltac cmp_done := split; [lia|eexists; reflexivity] || (split; [intros _; lia|intros _; eexists; reflexivity]).

Theorem fio_cmp_iff : forall t op l r a b, signed_rep t -> raw_bounded (rmax t) l -> raw_bounded (rmax t) r ->
  0 < den l -> 0 < den r -> value l = Some a -> value r = Some b ->
  (exists x, p_cmp (denote fast_reduced_io) t op (RR l r) = Ok x) <-> cross_fits (rmax t) a b.
Proof.
  intros t op l r a b SR BL BR PL PR VA VB. rewrite fio_cmp_rr.
  destruct (reduce_low_pos t l a) as [-> [A1 A2]]; auto. destruct (reduce_low_pos t r b) as [-> [B1 B2]]; auto.
  cbn [bind]. fold (ok (p_cmp fast t op (RR (mkRaw (low_num a) (low_den a)) (mkRaw (low_num b) (low_den b))))).
  destruct op; cbn [p_cmp fast p_equal_to_rr p_not_equal_to_rr p_less_rr p_less_equal_rr p_greater_rr p_greater_equal_rr];
    unfold fast_not_equal_to_rr, fast_greater_rr, fast_greater_equal_rr, fast_equal_to_rr, fast_less_rr, fast_less_equal_rr;
    cbn [num den]; unfold cross_fits, m_mul;
    (step_arith t SR; [|lia]); (step_arith t SR; [|lia]); cmp_done.
Qed.

Theorem fio_cmp_ri_iff : forall t op l z a, signed_rep t -> raw_bounded (rmax t) l -> 0 < den l -> in_rep t z = true ->
  value l = Some a ->
  (exists x, p_cmp (denote fast_reduced_io) t op (RI l z) = Ok x) <-> cross_fits (rmax t) a (inject_Z z).
Proof.
  intros t op l z a SR BL PL F VA. rewrite fio_cmp_ri.
  destruct (reduce_low_pos t l a) as [-> [A1 A2]]; auto. destruct (low_int z) as [Nz Dz].
  cbn [bind]. fold (ok (p_cmp fast t op (RI (mkRaw (low_num a) (low_den a)) z))).
  destruct op; cbn [p_cmp fast p_equal_to_ri p_not_equal_to_ri p_less_ri p_less_equal_ri p_greater_ri p_greater_equal_ri];
    unfold fast_not_equal_to_ri, fast_greater_ri, fast_greater_equal_ri, fast_equal_to_ri, fast_less_ri, fast_less_ir, fast_less_equal_ri, fast_less_equal_ir;
    cbn [num den]; unfold cross_fits, m_mul; rewrite ?Nz, ?Dz, ?Z.mul_1_r;
    (step_arith t SR; [|lia]); cmp_done.
Qed.

Theorem fio_cmp_ir_iff : forall t op l z a, signed_rep t -> raw_bounded (rmax t) l -> 0 < den l -> in_rep t z = true ->
  value l = Some a ->
  (exists x, p_cmp (denote fast_reduced_io) t op (IR z l) = Ok x) <-> cross_fits (rmax t) (inject_Z z) a.
Proof.
  intros t op l z a SR BL PL F VA. rewrite fio_cmp_ir.
  destruct (reduce_low_pos t l a) as [-> [A1 A2]]; auto. destruct (low_int z) as [Nz Dz].
  cbn [bind]. fold (ok (p_cmp fast t op (IR z (mkRaw (low_num a) (low_den a))))).
  destruct op; cbn [p_cmp fast p_equal_to_ir p_not_equal_to_ir p_less_ir p_less_equal_ir p_greater_ir p_greater_equal_ir];
    unfold fast_not_equal_to_ir, fast_greater_ir, fast_greater_equal_ir, fast_equal_to_ir, fast_equal_to_ri, fast_less_ri, fast_less_ir, fast_less_equal_ri, fast_less_equal_ir;
    cbn [num den]; unfold cross_fits, m_mul; rewrite ?Nz, ?Dz, ?Z.mul_1_r;
    (step_arith t SR; [|lia]); cmp_done.
Qed.

(** ** The two policies compared *)

Lemma coprime_least : forall a b, Z.gcd (low_den a) (low_den b) = 1 ->
  least_den a b = low_den a * low_den b /\ over a (least_den a b) = low_num a * low_den b /\
  over b (least_den a b) = low_num b * low_den a.
Proof.
  intros a b G. pose proof (low_den_pos a) as Pa. pose proof (low_den_pos b) as Pb.
  assert (E : least_den a b = low_den a * low_den b).
  { unfold least_den, Z.lcm. rewrite G, Z.div_1_r. nia. }
  rewrite E. unfold over. rewrite Z.div_mul by lia. rewrite (Z.mul_comm (low_den a)), Z.div_mul by lia. auto.
Qed.

Lemma coprime_enough : forall M op a b, 0 <= M -> Z.gcd (low_den a) (low_den b) = 1 ->
  enough M op a b <-> fast_enough M op a b.
Proof.
  intros M op a b PM G. destruct (coprime_least a b G) as [E [EA EB]].
  unfold enough, fast_enough, common_fits, cross_fits. cbv zeta. rewrite EA, EB, E.
  rewrite (Z.mul_comm (low_den a) (low_num b)). destruct op; tauto.
Qed.

Lemma products_enough : forall M op a b, op = Multiplies \/ op = Divides ->
  enough M op a b <-> fast_enough M op a b.
Proof.
  intros M op a b [-> | ->]; unfold enough, fast_enough; cbv zeta; [tauto|].
  rewrite (Z.mul_comm (low_den a) (low_num b)). tauto.
Qed.

Lemma value_canonical_pos : forall x q, canonical x -> value x = Some q -> 0 < den x.
Proof.
  intros x q [[N D]|[P _]] V; auto. rewrite value_undefined in V by auto. discriminate.
Qed.

Lemma on_safe_canonical : forall o, output_canonical (on_safe o) = output_canonical o.
Proof. induction o as [| |o IH m|o IH m]; cbn [on_safe output_canonical]; auto. now destruct m. Qed.

Lemma on_safe_negate : forall o t v, p_negate (denote (on_safe o)) t v = p_negate (denote o) t v.
Proof.
  induction o as [| |o IH m|o IH m]; intros t v; cbn [on_safe denote]; auto;
    cbn [reduced_input reduced_output p_negate]; unfold ri_negate, ro_negate.
  - destruct (reduce t v normalize_signs_mode); cbn [bind]; auto.
  - now rewrite IH.
Qed.

Lemma canonical_scaled : forall x y, canonical x -> canonical y -> scaled x y -> x = y.
Proof.
  intros x y CX CY [g [G [N D]]]. apply canonical_unique; auto.
  destruct (Z.eq_dec (den x) 0) as [Z0|Z0].
  - rewrite !value_undefined; cbn; auto. nia.
  - rewrite !value_defined by nia. cbn [same_value].
    apply (proj2 (qdiv_eq (num x) (den x) (num y) (den y) Z0 ltac:(nia))). rewrite N, D. ring.
Qed.

Lemma to_safe : forall o t op a r, signed_rep t -> wf_args t a -> positive_dens a -> output_canonical o = true ->
  p_arith (denote o) t op a = Ok r -> p_arith (denote (on_safe o)) t op a = Ok r.
Proof.
  intros o t op a r [W S] WA PD OC H. destruct (c56_safe_dominates_fast o t op a r W S WA PD H) as [r' [H' SC]].
  rewrite H'. f_equal. apply canonical_scaled; auto.
  - exact (denote_canonical (on_safe o) t op a r' W WA (eq_trans (on_safe_canonical o) OC) H').
  - exact (denote_canonical o t op a r W WA OC H).
Qed.


Lemma eval_canonical_pos : forall o t e r q, signed_rep t -> wf_expr t e -> positive_leaves e -> output_canonical o = true ->
  denotes e = Some q -> eval (denote o) t e = Ok r -> 0 < den r.
Proof.
  intros o t e. induction e as [r0|e IH|e IH|op l IHl r' IHr|op l IHl z|op z r' IHr]; intros v q SR We PL OC D H;
    pose proof SR as [W S].
  1:{ cbn [eval positive_leaves] in *. now injection H as <-. }
  1:{ cbn [eval positive_leaves wf_expr denotes] in *. destruct (eval (denote o) t e) as [x|] eqn:E; [|discriminate].
      cbn [bind] in H. injection H as <-. unfold f_posate in *. exact (IH _ q SR We PL OC D eq_refl). }
  all: pose proof (eval_exact o t _ v q W S We D H) as SV; destruct (value v) as [q'|] eqn:V; [|destruct SV].
  all: apply (value_canonical_pos v q'); auto; cbn [eval wf_expr] in *;
    repeat match type of H with bind ?x _ = _ => destruct x eqn:?E; [cbn [bind] in H|discriminate] end.
  - exact (denote_negate_canonical o t _ v W (eval_wf _ _ _ _ W We E) OC H).
  - rewrite f_arith_self in H. destruct We as [W1 W2].
    exact (denote_canonical o t op (RR _ _) v W (conj (eval_wf _ _ _ _ W W1 E) (eval_wf _ _ _ _ W W2 E0)) OC H).
  - rewrite f_arith_self in H. destruct We as [W1 W2].
    exact (denote_canonical o t op (RI _ _) v W (conj (eval_wf _ _ _ _ W W1 E) W2) OC H).
  - rewrite f_arith_self in H. destruct We as [W1 W2].
    exact (denote_canonical o t op (IR _ _) v W (conj W1 (eval_wf _ _ _ _ W W2 E)) OC H).
Qed.

Theorem eval_to_safe : forall o t e r q, signed_rep t -> wf_expr t e -> positive_leaves e -> output_canonical o = true ->
  denotes e = Some q -> eval (denote o) t e = Ok r -> eval (denote (on_safe o)) t e = Ok r.
Proof.
  intros o t e. induction e as [r0|e IH|e IH|op l IHl r' IHr|op l IHl z|op z r' IHr]; intros v q SR We PL OC D H;
    pose proof SR as [W S]; cbn [eval wf_expr positive_leaves denotes] in *; auto;
    repeat match type of H with bind ?x _ = _ => destruct x eqn:?E; [cbn [bind] in H|discriminate] end.
  - rewrite (IH _ q SR We PL OC D eq_refl). exact H.
  - destruct (denotes e) as [q'|] eqn:De; [|discriminate].
    rewrite (IH _ q' SR We PL OC eq_refl eq_refl). cbn [bind]. unfold f_negate in *. now rewrite on_safe_negate.
  - apply exact_opt_some in D as [x [y [D1 [D2 D3]]]]. destruct We as [W1 W2], PL as [P1 P2].
    rewrite (IHl _ x SR W1 P1 OC D1 eq_refl), (IHr _ y SR W2 P2 OC D2 eq_refl). cbn [bind].
    rewrite f_arith_self in *. apply to_safe; auto.
    + split; [exact (eval_wf _ _ _ _ W W1 E)|exact (eval_wf _ _ _ _ W W2 E0)].
    + split; [exact (eval_canonical_pos _ _ _ _ _ SR W1 P1 OC D1 E)|exact (eval_canonical_pos _ _ _ _ _ SR W2 P2 OC D2 E0)].
  - apply exact_opt_some in D as [x [y [D1 [D2 D3]]]]. destruct We as [W1 W2].
    rewrite (IHl _ x SR W1 PL OC D1 eq_refl). cbn [bind].
    rewrite f_arith_self in *. apply to_safe; auto.
    + split; [exact (eval_wf _ _ _ _ W W1 E)|exact W2].
    + exact (eval_canonical_pos _ _ _ _ _ SR W1 PL OC D1 E).
  - apply exact_opt_some in D as [x [y [D1 [D2 D3]]]]. destruct We as [W1 W2].
    rewrite (IHr _ y SR W2 PL OC D2 eq_refl). cbn [bind].
    rewrite f_arith_self in *. apply to_safe; auto.
    + split; [exact W1|exact (eval_wf _ _ _ _ W W2 E)].
    + exact (eval_canonical_pos _ _ _ _ _ SR W2 PL OC D2 E).
Qed.
