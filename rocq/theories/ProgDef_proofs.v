(** When a client program is free of undefined behaviour under the default policy. *)

From Coq Require Import ZArith QArith Qreduction Bool Lia.
From Verif Require Import Machine Raw Ops Spec Fraction Fmath Mixed_spec Defined_spec Unary_spec Program Program_spec ProgDef_spec.
From Verif Require Import Machine_proofs Value_proofs Ops_proofs Cmp_proofs Order_proofs Fraction_proofs Fmath_proofs Mixed_proofs
  Defined_proofs Defined2_proofs Unary_proofs Program_proofs Total_proofs.
Open Scope Z_scope.

(** ** Operands in lowest terms *)

Lemma low_some : forall t v q, low t v (Some q) -> num v = low_num q /\ den v = low_den q /\ value v <> None.
Proof.
  intros t v q [_ [C V]]. destruct (canonical_parts v q C V) as [-> ->]. split; [auto|]. split; [auto|].
  intros N. now rewrite N in V.
Qed.
Lemma low_none : forall t v, low t v None -> v = mkRaw 0 0.
Proof. intros t v [_ [C V]]. apply canonical_undefined; auto. destruct (value v); [contradiction|auto]. Qed.

(** Without the least integer: exactly the condition [bounded]. *)
Lemma low_bounded : forall t v q, signed_rep t -> low t v q -> (raw_bounded (rmax t) v <-> bounded (rmax t) q).
Proof.
  intros t v [q|] S L.
  - destruct (low_some t v q L) as [N [D _]]. unfold raw_bounded, bounded. rewrite N, D.
    pose proof (low_den_pos q) as P. destruct L as [[_ F] _]. apply range_iff in F; auto. rewrite D in F. lia.
  - rewrite (low_none t v L). unfold raw_bounded, bounded. cbn. pose proof (rmax_big t (proj1 S)). lia.
Qed.
Lemma low_reduce : forall t v q m, signed_rep t -> low t v q -> (ok (reduce t v m) <-> bounded (rmax t) q).
Proof.
  intros t v q m S L. rewrite <- (low_bounded t v q S L). rewrite (reduce_any_iff t v m S (proj1 L)).
  pose proof (rmin_rmax_signed t (proj2 S)) as RM. pose proof (rmax_big t (proj1 S)) as MX.
  destruct L as [[A B] [C V]]. apply range_iff in A; auto. apply range_iff in B; auto.
  unfold no_minimum, raw_bounded. destruct C as [[N D]|[D _]]; lia.
Qed.

Lemma bind_not_ok : forall A B (x : res A) (f : A -> res B), ~ ok x -> ~ ok (do y <- x; f y).
Proof. intros A B [a|u] f N [b H]; [apply N; now exists a|discriminate]. Qed.

Lemma reduce_low_id : forall t v q m r, signed_rep t -> low t v q -> reduce t v m = Ok r -> r = v.
Proof.
  intros t v q m r S [A [C V]] R. destruct C as [[N D]|[D G]].
  - assert (E : v = mkRaw 0 0) by (destruct v; cbn in *; congruence). subst. rewrite reduce_00 in R by apply S. congruence.
  - pose proof (reduce_low t v) as L. destruct q as [q|].
    2:{ destruct (value v) eqn:E; [contradiction|]. apply value_none_iff in E. lia. }
    assert (B : raw_bounded (rmax t) v).
    { pose proof (proj1 (reduce_any_iff t v m S A) (ex_intro _ r R)) as [Z|NM]; [lia|].
      pose proof (rmin_rmax_signed t (proj2 S)) as RM. destruct A as [A1 A2]. apply range_iff in A1; auto. apply range_iff in A2; auto.
      unfold no_minimum, raw_bounded in *. lia. }
    apply (reduce_spec _ _ _ _ (proj1 S)) in R as [WR [P _]]; auto.
    assert (CR : canonical r).
    { destruct m; [eapply reduces_canonical; eauto|].
      assert (Q : args_reduce ignore_signs_mode (RR v v) (RR r r)) by (split; auto).
      apply args_reduce_positive in Q; [|split; auto]. destruct Q as [Q _]. right. split; [auto|]. destruct P as [[Z _]|[_ [g [_ [_ [_ [Hg _]]]]]]]; [lia|auto]. }
    apply canonical_unique; [exact CR|right; auto|]. eapply reduces_same_value; eauto.
Qed.

(** ** One operator *)

Lemma low_parts : forall t v q, low t v (Some q) -> exists a, value v = Some a /\ (a == q)%Q /\ 0 < den v.
Proof.
  intros t v q [_ [C V]]. destruct (value v) as [a|] eqn:E; [|contradiction]. exists a. repeat split; auto.
  apply canonical_dens; auto. congruence.
Qed.

Ltac zero_arith := repeat (rewrite ?arith_0 by assumption; cbn [bind]; rewrite ?Z.mul_0_l, ?Z.mul_0_r, ?Z.add_0_r, ?Z.sub_0_r).

Lemma none_ok : forall t op x y a b, signed_rep t -> low t x a -> low t y b -> a = None \/ b = None ->
  ok (p_arith safe t op (RR x y)) <-> op = Multiplies \/ op = Divides.
Proof.
  intros t op x y a b [W S] X Y N.
  assert (D : den x = 0 /\ num x = 0 \/ den y = 0 /\ num y = 0).
  { destruct N as [-> | ->]; [rewrite (low_none t x X)|rewrite (low_none t y Y)]; cbn; auto. }
  clear X Y N. split.
  - destruct op; auto; intros [r H]; exfalso; cbn in H;
      unfold safe_plus_rr, safe_minus_rr, safe_modulus_rr, m_div in H;
      destruct D as [[D _]|[D _]]; rewrite D in H; cbn [Z.eqb] in H;
      destruct (std_lcm t _ _); cbn [bind] in H; try discriminate;
      destruct (den x =? 0); cbn [bind] in H; try discriminate;
      destruct (arith t _); cbn [bind] in H; try discriminate;
      destruct (m_mul t _ _); cbn [bind] in H; discriminate.
  - intros [-> | ->]; cbn; unfold safe_multiplies_rr, safe_divides_rr, m_mul;
      destruct D as [[-> ->]|[-> ->]]; rewrite ?Z.mul_0_r, ?Z.mul_0_l; zero_arith; apply ok_ok.
Qed.
Lemma none_ri : forall t op z, signed_rep t -> in_rep t z = true ->
  (ok (p_arith safe t op (RI (mkRaw 0 0) z)) <-> op <> Modulus) /\
  (forall r, p_arith safe t op (RI (mkRaw 0 0) z) = Ok r -> den r = 0).
Proof.
  intros t op z [W S] F. destruct op; cbn; unfold safe_plus_ri, safe_minus_ri, safe_multiplies_ri, safe_divides_ri, safe_modulus_ri,
    m_mul, m_add, m_sub; cbn [num den]; zero_arith; cbn [Z.add Z.sub]; zero_arith;
    try (split; [split; [discriminate|intros; apply ok_ok]|intros r H; inversion H; reflexivity]).
  cbn. split; [split; [intros [r H]; discriminate|congruence]|discriminate].
Qed.
Lemma none_ir : forall t op z, signed_rep t -> in_rep t z = true ->
  (ok (p_arith safe t op (IR z (mkRaw 0 0))) <-> op <> Modulus) /\
  (forall r, p_arith safe t op (IR z (mkRaw 0 0)) = Ok r -> den r = 0).
Proof.
  intros t op z [W S] F. destruct op; cbn; unfold safe_plus_ir, safe_plus_ri, safe_minus_ir, safe_multiplies_ir, safe_multiplies_ri, safe_divides_ir, safe_modulus_ir,
    m_mul, m_add, m_sub; cbn [num den]; zero_arith; cbn [Z.add Z.sub]; zero_arith;
    try (split; [split; [discriminate|intros; apply ok_ok]|intros r H; inversion H; reflexivity]).
  cbn. split; [split; [intros [r H]; discriminate|congruence]|discriminate].
Qed.

Lemma ok_reduce : forall t (x : res raw) m, wf_rep t -> (forall r, x = Ok r -> den r = 0) ->
  ok (do v <- x; reduce t v m) <-> ok x.
Proof.
  intros t [r|u] m W D; cbn [bind]; [|split; intros [? ?]; discriminate].
  split; [intros; apply ok_ok|intros _]. exists (mkRaw 0 0). apply reduce_undefined; auto.
Qed.

Lemma rr_step : forall t op x y a b, signed_rep t -> low t x a -> low t y b ->
  ok (p_arith (denote defaults) t op (RR x y)) <-> arith_defined (rmax t) op a b.
Proof.
  intros t op x y a b S X Y. pose proof S as [W Sg]. unfold arith_defined.
  rewrite <- (low_bounded t x a S X), <- (low_bounded t y b S Y).
  split.
  - intros K. assert (B1 : raw_bounded (rmax t) x).
    { rewrite io_rr in K. apply (low_bounded t x a S X). apply (low_reduce t x a ignore_signs_mode S X).
      destruct (reduce t x ignore_signs_mode); [apply ok_ok|destruct K as [? K]; discriminate]. }
    assert (B2 : raw_bounded (rmax t) y).
    { rewrite io_rr in K. apply (low_bounded t y b S Y). apply (low_reduce t y b ignore_signs_mode S Y).
      destruct (reduce t x ignore_signs_mode); [|destruct K as [? K]; discriminate]. cbn [bind] in K.
      destruct (reduce t y ignore_signs_mode); [apply ok_ok|destruct K as [? K]; discriminate]. }
    split; [auto|]. split; [auto|].
    destruct a as [a|]; [destruct b as [b|]|].
    + destruct (low_parts t x a X) as [a' [VA [EA _]]]. destruct (low_parts t y b Y) as [b' [VB [EB _]]].
      apply (enough_proper _ op _ _ _ _ EA EB). apply (io_iff t op x y a' b'); auto.
    + apply (none_ok t op x y (Some a) None S X Y); auto. rewrite io_rr in K. destruct K as [r K].
      destruct (reduce t x _) as [x'|] eqn:RX; [|discriminate]. cbn [bind] in K.
      destruct (reduce t y _) as [y'|] eqn:RY; [|discriminate]. cbn [bind] in K.
      apply (reduce_low_id _ _ _ _ _ S X) in RX. apply (reduce_low_id _ _ _ _ _ S Y) in RY. subst.
      destruct (p_arith safe _ _ _); [apply ok_ok|discriminate].
    + apply (none_ok t op x y None b S X Y); auto. rewrite io_rr in K. destruct K as [r K].
      destruct (reduce t x _) as [x'|] eqn:RX; [|discriminate]. cbn [bind] in K.
      destruct (reduce t y _) as [y'|] eqn:RY; [|discriminate]. cbn [bind] in K.
      apply (reduce_low_id _ _ _ _ _ S X) in RX. apply (reduce_low_id _ _ _ _ _ S Y) in RY. subst.
      destruct (p_arith safe _ _ _); [apply ok_ok|discriminate].
  - intros [B1 [B2 K]].
    assert (G : a = None \/ b = None -> (op = Multiplies \/ op = Divides) -> ok (p_arith (denote defaults) t op (RR x y))).
    { intros N KO. rewrite io_rr. apply (low_bounded t x a S X) in B1. apply (low_bounded t y b S Y) in B2.
      apply (low_reduce t x a ignore_signs_mode S X) in B1 as [x' RX]. apply (low_reduce t y b ignore_signs_mode S Y) in B2 as [y' RY].
      rewrite RX, RY. cbn [bind]. apply (reduce_low_id _ _ _ _ _ S X) in RX. apply (reduce_low_id _ _ _ _ _ S Y) in RY. subst.
      apply ok_reduce; auto; [|apply (none_ok t op x y a b S X Y); auto].
      intros r H. assert (D : den x = 0 /\ num x = 0 \/ den y = 0 /\ num y = 0).
      { destruct N as [-> | ->]; [rewrite (low_none t x X)|rewrite (low_none t y Y)]; cbn; auto. }
      destruct KO as [-> | ->]; cbn in H; unfold safe_multiplies_rr, safe_divides_rr, m_mul in H; inv_bind H;
        inversion H; subst; cbn; destruct D as [[Dx Nx]|[Dx Nx]]; rewrite ?Dx, ?Nx, ?Z.mul_0_r, ?Z.mul_0_l, ?arith_0 in * by auto; congruence. }
    destruct a as [a|]; [destruct b as [b|]|]; auto.
    destruct (low_parts t x a X) as [a' [VA [EA _]]]. destruct (low_parts t y b Y) as [b' [VB [EB _]]].
    apply (enough_proper _ op _ _ _ _ EA EB) in K. apply (io_iff t op x y a' b'); auto.
Qed.

Lemma ri_step : forall t op x z a, signed_rep t -> low t x a -> in_rep t z = true ->
  ok (p_arith (denote defaults) t op (RI x z)) <-> arith_int_defined (rmax t) op a z.
Proof.
  intros t op x z a S X F. pose proof S as [W Sg]. unfold arith_int_defined. rewrite <- (low_bounded t x a S X).
  destruct a as [a|].
  - destruct (low_parts t x a X) as [a' [VA [EA P]]].
    rewrite <- (enough_proper _ op _ _ _ _ EA (Qeq_refl (inject_Z z))). split.
    + intros K. assert (B : raw_bounded (rmax t) x).
      { rewrite io_ri in K. apply (low_bounded t x (Some a) S X). apply (low_reduce t x (Some a) ignore_signs_mode S X).
        destruct (reduce t x ignore_signs_mode); [apply ok_ok|destruct K as [? K]; discriminate]. }
      split; auto. apply (io_ri_iff t op x z a'); auto.
    + intros [B K]. apply (io_ri_iff t op x z a'); auto.
  - rewrite (low_none t x X). rewrite io_ri, reduce_00 by auto. cbn [bind].
    destruct (none_ri t op z S F) as [N D]. rewrite ok_reduce by auto. rewrite N.
    pose proof (rmax_big t W). unfold raw_bounded; cbn. split; [|tauto]. split; auto. lia.
Qed.
Lemma ir_step : forall t op x z a, signed_rep t -> low t x a -> in_rep t z = true ->
  ok (p_arith (denote defaults) t op (IR z x)) <-> int_arith_defined (rmax t) op z a.
Proof.
  intros t op x z a S X F. pose proof S as [W Sg]. unfold int_arith_defined. rewrite <- (low_bounded t x a S X).
  destruct a as [a|].
  - destruct (low_parts t x a X) as [a' [VA [EA P]]].
    rewrite <- (enough_proper _ op _ _ _ _ (Qeq_refl (inject_Z z)) EA). split.
    + intros K. assert (B : raw_bounded (rmax t) x).
      { rewrite io_ir in K. apply (low_bounded t x (Some a) S X). apply (low_reduce t x (Some a) ignore_signs_mode S X).
        destruct (reduce t x ignore_signs_mode); [apply ok_ok|destruct K as [? K]; discriminate]. }
      split; auto. apply (io_ir_iff t op x z a'); auto.
    + intros [B K]. apply (io_ir_iff t op x z a'); auto.
  - rewrite (low_none t x X). rewrite io_ir, reduce_00 by auto. cbn [bind].
    destruct (none_ir t op z S F) as [N D]. rewrite ok_reduce by auto. rewrite N.
    pose proof (rmax_big t W). unfold raw_bounded; cbn. split; [|tauto]. split; auto. lia.
Qed.

(** ** One comparison *)

Lemma cmp_rr_step : forall t op x y a b, signed_rep t -> low t x a -> low t y b ->
  ok (p_cmp (denote defaults) t op (RR x y)) <-> cmp_defined (rmax t) a b.
Proof.
  intros t op x y a b S X Y. pose proof S as [W Sg]. unfold cmp_defined.
  rewrite <- (low_bounded t x a S X), <- (low_bounded t y b S Y).
  split.
  - intros K. assert (B1 : raw_bounded (rmax t) x).
    { rewrite io_cmp_rr in K. apply (low_bounded t x a S X). apply (low_reduce t x a ignore_signs_mode S X).
      destruct (reduce t x ignore_signs_mode); [apply ok_ok|destruct K as [? K]; discriminate]. }
    assert (B2 : raw_bounded (rmax t) y).
    { rewrite io_cmp_rr in K. apply (low_bounded t y b S Y). apply (low_reduce t y b ignore_signs_mode S Y).
      destruct (reduce t x ignore_signs_mode); [|destruct K as [? K]; discriminate]. cbn [bind] in K.
      destruct (reduce t y ignore_signs_mode); [apply ok_ok|destruct K as [? K]; discriminate]. }
    split; [auto|]. split; [auto|].
    destruct a as [a|]; [destruct b as [b|]|]; auto.
    destruct (low_parts t x a X) as [a' [VA [EA _]]]. destruct (low_parts t y b Y) as [b' [VB [EB _]]].
    apply (common_fits_proper _ _ _ _ _ EA EB). apply (io_cmp_iff t op x y a' b'); auto.
  - intros [B1 [B2 K]].
    assert (G : a = None \/ b = None -> ok (p_cmp (denote defaults) t op (RR x y))).
    { intros N. rewrite io_cmp_rr. apply (low_bounded t x a S X) in B1. apply (low_bounded t y b S Y) in B2.
      apply (low_reduce t x a ignore_signs_mode S X) in B1 as [x' RX]. apply (low_reduce t y b ignore_signs_mode S Y) in B2 as [y' RY].
      rewrite RX, RY. cbn [bind]. apply (reduce_low_id _ _ _ _ _ S X) in RX. apply (reduce_low_id _ _ _ _ _ S Y) in RY. subst.
      assert (U : is_undefined x || is_undefined y = true).
      { destruct N as [-> | ->]; [rewrite (low_none t x X)|rewrite (low_none t y Y)]; cbn; auto using orb_true_r. }
      assert (U' : is_undefined y || is_undefined x = true) by (rewrite orb_comm; auto).
      destruct op; cbn; unfold safe_not_equal_to_rr, safe_equal_to_rr, safe_less_rr, safe_less_equal_rr, safe_greater_rr, safe_greater_equal_rr,
        safe_less_rr, safe_less_equal_rr; rewrite ?U, ?U'; apply ok_ok. }
    destruct a as [a|]; [destruct b as [b|]|]; auto.
    destruct (low_parts t x a X) as [a' [VA [EA _]]]. destruct (low_parts t y b Y) as [b' [VB [EB _]]].
    apply (common_fits_proper _ _ _ _ _ EA EB) in K. apply (io_cmp_iff t op x y a' b'); auto.
Qed.

Lemma cmp_ri_step : forall t op x z a, signed_rep t -> low t x a -> in_rep t z = true ->
  ok (p_cmp (denote defaults) t op (RI x z)) <-> cmp_int_defined (rmax t) a z.
Proof.
  intros t op x z a S X F. pose proof S as [W Sg]. unfold cmp_int_defined. rewrite <- (low_bounded t x a S X).
  assert (E : p_cmp (denote defaults) t op (RI x z) =
    do l' <- reduce t x ignore_signs_mode; p_cmp safe t op (RI l' z)) by (destruct op; reflexivity).
  destruct a as [a|].
  - destruct (low_parts t x a X) as [a' [VA [EA P]]].
    rewrite <- (common_fits_proper _ _ _ _ _ EA (Qeq_refl (inject_Z z))). split.
    + intros K. assert (B : raw_bounded (rmax t) x).
      { rewrite E in K. apply (low_bounded t x (Some a) S X). apply (low_reduce t x (Some a) ignore_signs_mode S X).
        destruct (reduce t x ignore_signs_mode); [apply ok_ok|destruct K as [? K]; discriminate]. }
      split; auto. apply (io_cmp_ri_iff t op x z a'); auto.
    + intros [B K]. apply (io_cmp_ri_iff t op x z a'); auto.
  - rewrite E, (low_none t x X), reduce_00 by auto. cbn [bind].
    pose proof (rmax_big t W). split; [intros _; unfold raw_bounded; cbn; split; auto; lia|intros _].
    destruct op; cbn; unfold safe_not_equal_to_ri, safe_equal_to_ri, safe_less_ri, safe_less_equal_ri, safe_greater_ri, safe_greater_equal_ri,
      safe_less_ir, safe_less_equal_ir, m_mul; cbn [num den]; zero_arith; apply ok_ok.
Qed.
Lemma cmp_ir_step : forall t op x z a, signed_rep t -> low t x a -> in_rep t z = true ->
  ok (p_cmp (denote defaults) t op (IR z x)) <-> int_cmp_defined (rmax t) z a.
Proof.
  intros t op x z a S X F. pose proof S as [W Sg]. unfold int_cmp_defined. rewrite <- (low_bounded t x a S X).
  assert (E : p_cmp (denote defaults) t op (IR z x) =
    do l' <- reduce t x ignore_signs_mode; p_cmp safe t op (IR z l')) by (destruct op; reflexivity).
  destruct a as [a|].
  - destruct (low_parts t x a X) as [a' [VA [EA P]]].
    rewrite <- (common_fits_proper _ _ _ _ _ (Qeq_refl (inject_Z z)) EA). split.
    + intros K. assert (B : raw_bounded (rmax t) x).
      { rewrite E in K. apply (low_bounded t x (Some a) S X). apply (low_reduce t x (Some a) ignore_signs_mode S X).
        destruct (reduce t x ignore_signs_mode); [apply ok_ok|destruct K as [? K]; discriminate]. }
      split; auto. apply (io_cmp_ir_iff t op z x a'); auto.
    + intros [B K]. apply (io_cmp_ir_iff t op z x a'); auto.
  - rewrite E, (low_none t x X), reduce_00 by auto. cbn [bind].
    pose proof (rmax_big t W). split; [intros _; unfold raw_bounded; cbn; split; auto; lia|intros _].
    destruct op; cbn; unfold safe_not_equal_to_ir, safe_equal_to_ir, safe_not_equal_to_ri, safe_equal_to_ri, safe_less_ir, safe_less_equal_ir, safe_greater_ir, safe_greater_equal_ir,
      safe_less_ri, safe_less_equal_ri, m_mul; cbn [num den]; zero_arith; apply ok_ok.
Qed.

(** ** Unary operations *)

Lemma low_negate : forall t v q, signed_rep t -> low t v q ->
  (ok (p_negate (denote defaults) t v) <-> bounded (rmax t) q).
Proof.
  intros t v q S L. rewrite <- (low_reduce t v q normalize_signs_mode S L).
  rewrite (reduce_any_iff t v _ S (proj1 L)). apply negate_reduced_iff; auto. apply L.
Qed.
Lemma low_abs : forall t v q, signed_rep t -> low t v q ->
  (ok (f_abs (denote defaults) t v) <-> bounded (rmax t) q).
Proof.
  intros t v q S L. unfold f_abs. destruct (is_non_negative v) eqn:N.
  - split; [intros _|intros; apply ok_ok]. destruct q as [q|]; cbn; auto.
    destruct (low_some t v q L) as [E [D V]]. pose proof (low_den_pos q) as P.
    destruct L as [[F _] _]. apply range_iff in F; auto. rewrite E in F.
    unfold is_non_negative, is_zero, is_positive, is_undefined in N. rewrite E, D in N.
    assert (0 <= low_num q); [|lia].
    unfold is_non_negative in N. cbn in N.
    destruct (Z.ltb_spec (low_num q) 0); [exfalso|lia].
    revert N. rewrite ?E, ?D. destruct (low_num q) as [|p|p], (low_den q) as [|p'|p']; try lia; cbn; discriminate.
  - apply low_negate; auto.
Qed.

(** ** Integers *)

Lemma ieval_ok : forall ty s q i, wf_store ty s -> represents s q -> wf_i ty i ->
  ok (ieval ty s i) <-> imeaning q i <> None.
Proof.
  intros ty s q i W R I. split.
  - intros [z H]. apply (ieval_sim ty s q) in H as [_ H]; auto. congruence.
  - destruct i as [t k|x|x|x]; cbn; intros H; try apply ok_ok.
    destruct (W x) as [S [F C]]. apply f_trunc_defined; [apply S|auto|].
    specialize (R x). destruct (q x) as [a|]; [|congruence].
    assert (P : 0 < den (s x)).
    { apply canonical_dens; auto. intros E. now rewrite E in R. }
    split; [lia|]. intros [_ [_ E]]. lia.
Qed.

Lemma ok_bind : forall A B (x : res A) (f : A -> res B), ok (do y <- x; f y) <-> exists a, x = Ok a /\ ok (f a).
Proof.
  intros A B [a|u] f; cbn [bind]; split.
  - intros H; eauto.
  - intros [a' [E H]]. now injection E as ->.
  - intros [b H]; discriminate.
  - intros [a' [E H]]; discriminate.
Qed.

(** ** Expressions *)

Lemma out_defaults : output_canonical defaults = true.
Proof. reflexivity. Qed.

Theorem feval_ok : forall ty s q e, wf_store ty s -> represents s q -> wf_f ty e ->
  ok (feval (denote defaults) ty s e) <-> fdefined ty q e.
Proof.
  intros ty s q e W R.
  assert (FS := fun e v => feval_sim defaults ty s q e v out_defaults W R).
  induction e as [x|t r|i|e IH|e IH|e IH|e IH|op l IHl r IHr|op l IHl i|op i r IHr]; intros F; cbn [feval fdefined]; cbn [wf_f] in F.
  - split; auto. intros; apply ok_ok.
  - split; auto. intros; apply ok_ok.
  - rewrite ok_bind, <- (ieval_ok ty s q i W R F). split; intros [z H]; [destruct H; exists z; auto|exists z; split; auto; apply ok_ok].
  - rewrite ok_bind, <- IH by auto. split; intros [z H]; [destruct H; exists z; auto|exists z; split; auto; apply ok_ok].
  - rewrite ok_bind, <- IH by auto. pose proof (ftype_signed _ _ _ W F) as S. unfold f_negate. split.
    + intros [v [E K]]. split; [now exists v|]. apply (low_negate _ v); auto.
    + intros [[v E] K]. exists v. split; auto. apply (low_negate _ v (fmeaning q e)); auto.
  - rewrite ok_bind, <- IH by auto. pose proof (ftype_signed _ _ _ W F) as S. split.
    + intros [v [E K]]. split; [now exists v|]. apply (low_abs _ v); auto.
    + intros [[v E] K]. exists v. split; auto. apply (low_abs _ v (fmeaning q e)); auto.
  - rewrite ok_bind, <- IH by auto. pose proof (ftype_signed _ _ _ W F) as S. split.
    + intros [v [E K]]. split; [now exists v|]. apply (low_reduce _ v _ normalize_signs_mode); auto.
    + intros [[v E] K]. exists v. split; auto. apply (low_reduce _ v (fmeaning q e)); auto.
  - destruct F as [Fl Fr].
    pose proof (ftype_signed _ _ _ W Fl) as Sl. pose proof (ftype_signed _ _ _ W Fr) as Sr.
    destruct (common_signed _ _ Sl Sr) as [Sc [Bl Br]].
    assert (G : forall x y, feval (denote defaults) ty s l = Ok x -> feval (denote defaults) ty s r = Ok y ->
      ok (f_arith (denote defaults) (ftype ty l) (ftype ty r) op (RR x y)) <->
      arith_defined (rmax (common_rep (ftype ty l) (ftype ty r))) op (fmeaning q l) (fmeaning q r)).
    { intros x y Ex Ey. destruct (conv_low _ _ _ _ Sl Sc Bl (FS _ _ Fl Ex)) as [El Ll].
      destruct (conv_low _ _ _ _ Sr Sc Br (FS _ _ Fr Ey)) as [Er Lr].
      unfold f_arith, common_args. rewrite El, Er. now apply rr_step. }
    rewrite <- IHl, <- IHr, ok_bind by auto. split.
    + intros [x [Ex K]]. apply ok_bind in K as [y [Ey K]]. split; [now exists x|]. split; [now exists y|]. now apply (G x y).
    + intros [[x Ex] [[y Ey] K]]. exists x. split; auto. apply ok_bind. exists y. split; auto. now apply (G x y).
  - destruct F as [Fl Fi].
    pose proof (ftype_signed _ _ _ W Fl) as Sl. pose proof (itype_signed _ _ _ W Fi) as Sr.
    destruct (common_signed _ _ Sl Sr) as [Sc [Bl Br]].
    assert (G : forall x z, feval (denote defaults) ty s l = Ok x -> ieval ty s i = Ok z ->
      ok (f_arith (denote defaults) (ftype ty l) (itype ty i) op (RI x z)) <->
      arith_int_defined (rmax (common_rep (ftype ty l) (itype ty i))) op (fmeaning q l) z).
    { intros x z Ex Ez. destruct (conv_low _ _ _ _ Sl Sc Bl (FS _ _ Fl Ex)) as [El Ll].
      destruct (ieval_sim _ _ _ _ _ W R Fi Ez) as [Ai _]. destruct (int_conv _ _ _ _ _ W Fi Sc Ai Br) as [Er Ar].
      unfold f_arith, common_args. rewrite El, Er. now apply ri_step. }
    rewrite <- IHl, ok_bind by auto. split.
    + intros [x [Ex K]]. apply ok_bind in K as [z [Ez K]]. split; [now exists x|]. exists z.
      split; [now apply (ieval_sim _ _ _ _ _ W R Fi Ez)|]. now apply (G x z).
    + intros [[x Ex] [z [Mz K]]]. exists x. split; auto. apply ok_bind.
      assert (ok (ieval ty s i)) as [z' Ez] by (apply (ieval_ok ty s q i W R Fi); congruence).
      pose proof (proj2 (ieval_sim _ _ _ _ _ W R Fi Ez)) as M. exists z'. split; auto.
      apply (G x z'); auto. congruence.
  - destruct F as [Fi Fr].
    pose proof (ftype_signed _ _ _ W Fr) as Sr. pose proof (itype_signed _ _ _ W Fi) as Sl.
    destruct (common_signed _ _ Sl Sr) as [Sc [Bl Br]].
    assert (G : forall y z, feval (denote defaults) ty s r = Ok y -> ieval ty s i = Ok z ->
      ok (f_arith (denote defaults) (itype ty i) (ftype ty r) op (IR z y)) <->
      int_arith_defined (rmax (common_rep (itype ty i) (ftype ty r))) op z (fmeaning q r)).
    { intros y z Ey Ez. destruct (conv_low _ _ _ _ Sr Sc Br (FS _ _ Fr Ey)) as [Er Lr].
      destruct (ieval_sim _ _ _ _ _ W R Fi Ez) as [Ai _]. destruct (int_conv _ _ _ _ _ W Fi Sc Ai Bl) as [El Al].
      unfold f_arith, common_args. rewrite El, Er. now apply ir_step. }
    rewrite <- IHr, ok_bind by auto. split.
    + intros [z [Ez K]]. apply ok_bind in K as [y [Ey K]]. split; [now exists y|]. exists z.
      split; [now apply (ieval_sim _ _ _ _ _ W R Fi Ez)|]. now apply (G y z).
    + intros [[y Ey] [z [Mz K]]].
      assert (ok (ieval ty s i)) as [z' Ez] by (apply (ieval_ok ty s q i W R Fi); congruence).
      pose proof (proj2 (ieval_sim _ _ _ _ _ W R Fi Ez)) as M. exists z'. split; auto. apply ok_bind. exists y. split; auto.
      apply (G y z'); auto. congruence.
Qed.

(** ** Conditions *)

Theorem beval_ok : forall ty s q b, wf_store ty s -> represents s q -> wf_b ty b ->
  ok (beval (denote defaults) ty s b) <-> bdefined ty q b.
Proof.
  intros ty s q b W R.
  assert (FS := fun e v => feval_sim defaults ty s q e v out_defaults W R).
  assert (BS := fun b v => beval_sim defaults ty s q b v out_defaults W R).
  assert (FO := fun e => feval_ok ty s q e W R).
  induction b as [op l r|op l i|op i r|b IH|a IHa b IHb|a IHa b IHb]; intros F; cbn [beval bdefined]; cbn [wf_b] in F.
  - destruct F as [Fl Fr].
    pose proof (ftype_signed _ _ _ W Fl) as Sl. pose proof (ftype_signed _ _ _ W Fr) as Sr.
    destruct (common_signed _ _ Sl Sr) as [Sc [Bl Br]].
    assert (G : forall x y, feval (denote defaults) ty s l = Ok x -> feval (denote defaults) ty s r = Ok y ->
      ok (f_cmp (denote defaults) (ftype ty l) (ftype ty r) op (RR x y)) <->
      cmp_defined (rmax (common_rep (ftype ty l) (ftype ty r))) (fmeaning q l) (fmeaning q r)).
    { intros x y Ex Ey. destruct (conv_low _ _ _ _ Sl Sc Bl (FS _ _ Fl Ex)) as [El Ll].
      destruct (conv_low _ _ _ _ Sr Sc Br (FS _ _ Fr Ey)) as [Er Lr].
      unfold f_cmp, common_args. rewrite El, Er. now apply cmp_rr_step. }
    rewrite <- (FO l), <- (FO r), ok_bind by auto. split.
    + intros [x [Ex K]]. apply ok_bind in K as [y [Ey K]]. split; [now exists x|]. split; [now exists y|]. now apply (G x y).
    + intros [[x Ex] [[y Ey] K]]. exists x. split; auto. apply ok_bind. exists y. split; auto. now apply (G x y).
  - destruct F as [Fl Fi].
    pose proof (ftype_signed _ _ _ W Fl) as Sl. pose proof (itype_signed _ _ _ W Fi) as Sr.
    destruct (common_signed _ _ Sl Sr) as [Sc [Bl Br]].
    assert (G : forall x z, feval (denote defaults) ty s l = Ok x -> ieval ty s i = Ok z ->
      ok (f_cmp (denote defaults) (ftype ty l) (itype ty i) op (RI x z)) <->
      cmp_int_defined (rmax (common_rep (ftype ty l) (itype ty i))) (fmeaning q l) z).
    { intros x z Ex Ez. destruct (conv_low _ _ _ _ Sl Sc Bl (FS _ _ Fl Ex)) as [El Ll].
      destruct (ieval_sim _ _ _ _ _ W R Fi Ez) as [Ai _]. destruct (int_conv _ _ _ _ _ W Fi Sc Ai Br) as [Er Ar].
      unfold f_cmp, common_args. rewrite El, Er. now apply cmp_ri_step. }
    rewrite <- (FO l), ok_bind by auto. split.
    + intros [x [Ex K]]. apply ok_bind in K as [z [Ez K]]. split; [now exists x|]. exists z.
      split; [now apply (ieval_sim _ _ _ _ _ W R Fi Ez)|]. now apply (G x z).
    + intros [[x Ex] [z [Mz K]]]. exists x. split; auto. apply ok_bind.
      assert (ok (ieval ty s i)) as [z' Ez] by (apply (ieval_ok ty s q i W R Fi); congruence).
      pose proof (proj2 (ieval_sim _ _ _ _ _ W R Fi Ez)) as M. exists z'. split; auto.
      apply (G x z'); auto. congruence.
  - destruct F as [Fi Fr].
    pose proof (ftype_signed _ _ _ W Fr) as Sr. pose proof (itype_signed _ _ _ W Fi) as Sl.
    destruct (common_signed _ _ Sl Sr) as [Sc [Bl Br]].
    assert (G : forall y z, feval (denote defaults) ty s r = Ok y -> ieval ty s i = Ok z ->
      ok (f_cmp (denote defaults) (itype ty i) (ftype ty r) op (IR z y)) <->
      int_cmp_defined (rmax (common_rep (itype ty i) (ftype ty r))) z (fmeaning q r)).
    { intros y z Ey Ez. destruct (conv_low _ _ _ _ Sr Sc Br (FS _ _ Fr Ey)) as [Er Lr].
      destruct (ieval_sim _ _ _ _ _ W R Fi Ez) as [Ai _]. destruct (int_conv _ _ _ _ _ W Fi Sc Ai Bl) as [El Al].
      unfold f_cmp, common_args. rewrite El, Er. now apply cmp_ir_step. }
    rewrite <- (FO r), ok_bind by auto. split.
    + intros [z [Ez K]]. apply ok_bind in K as [y [Ey K]]. split; [now exists y|]. exists z.
      split; [now apply (ieval_sim _ _ _ _ _ W R Fi Ez)|]. now apply (G y z).
    + intros [[y Ey] [z [Mz K]]].
      assert (ok (ieval ty s i)) as [z' Ez] by (apply (ieval_ok ty s q i W R Fi); congruence).
      pose proof (proj2 (ieval_sim _ _ _ _ _ W R Fi Ez)) as M. exists z'. split; auto. apply ok_bind. exists y. split; auto.
      apply (G y z'); auto. congruence.
  - rewrite ok_bind, <- IH by auto. split; intros [z H]; [destruct H; exists z; auto|exists z; split; auto; apply ok_ok].
  - destruct F as [Fa Fb]. rewrite ok_bind, <- IHa, <- IHb by auto. split.
    + intros [v [E K]]. split; [now exists v|]. rewrite <- (BS _ _ Fa E). intros ->. exact K.
    + intros [[v E] K]. exists v. split; auto. rewrite <- (BS _ _ Fa E) in K. destruct v; [auto|apply ok_ok].
  - destruct F as [Fa Fb]. rewrite ok_bind, <- IHa, <- IHb by auto. split.
    + intros [v [E K]]. split; [now exists v|]. rewrite <- (BS _ _ Fa E). intros ->. exact K.
    + intros [[v E] K]. exists v. split; auto. rewrite <- (BS _ _ Fa E) in K. destruct v; [apply ok_ok|auto].
Qed.

(** ** Statements *)

Lemma some_ok : forall A (x : res A), (exists s, Some x = Some (Ok s)) <-> ok x.
Proof. intros A x. split; intros [s H]; exists s; congruence. Qed.

Lemma write_ok : forall A (x : res A) (f : A -> store), ok (do r <- x; Ok (f r)) <-> ok x.
Proof. intros A x f. rewrite ok_bind. split; intros [r H]; [destruct H; now exists r|exists r; split; auto; apply ok_ok]. Qed.

Theorem exec_ok : forall ty fuel s q c, wf_store ty s -> represents s q -> wf_s ty c ->
  (exists s', exec (denote defaults) ty fuel s c = Some (Ok s')) <-> run_defined ty fuel q c.
Proof.
  intros ty fuel. induction fuel as [|fuel IH]; intros s q c W R F.
  { cbn. split; [intros [s' H]; discriminate|contradiction]. }
  assert (SEQ : forall a b, wf_s ty a -> wf_s ty b ->
    (exists s', match exec (denote defaults) ty fuel s a with Some (Ok s') => exec (denote defaults) ty fuel s' b | r => r end = Some (Ok s')) <->
    (run_defined ty fuel q a /\ exists q', run fuel q a = Some q' /\ run_defined ty fuel q' b)).
  { intros a b Fa Fb. rewrite <- (IH s q a) by auto.
    pose proof (exec_sim defaults ty fuel s q a out_defaults W R Fa) as SM.
    destruct (exec (denote defaults) ty fuel s a) as [[s1|u]|]; cbn in SM.
    - destruct SM as [q1 [E1 [R1 W1]]]. rewrite (IH s1 q1 b) by auto. split.
      + intros K. split; [now exists s1|]. now exists q1.
      + intros [_ [q' [E' K]]]. congruence.
    - split; [intros [s' H]; discriminate|intros [[s' H] _]; discriminate].
    - split; [intros [s' H]; discriminate|intros [[s' H] _]; discriminate]. }
  destruct c as [|x e|op x e|op x i|a b|b x y|b x]; cbn [exec run_defined]; cbn [wf_s] in F.
  - split; auto. intros; eauto.
  - rewrite some_ok, write_ok. apply feval_ok; tauto.
  - destruct F as [F B]. rewrite some_ok, ok_bind, <- (feval_ok ty s q e W R F).
    destruct (W x) as [Sx [Ax Cx]]. pose proof (ftype_signed _ _ _ W F) as S.
    assert (G : forall v, feval (denote defaults) ty s e = Ok v ->
      ok (do r <- f_assign (denote defaults) (ty x) op (s x) (FracOperand (ftype ty e) v); Ok (write s x r)) <->
      arith_defined (rmax (ty x)) op (q x) (fmeaning q e)).
    { intros v E. pose proof (feval_sim _ _ _ _ _ _ out_defaults W R F E) as L.
      destruct (conv_low _ _ _ _ S Sx B L) as [Ec L']. rewrite write_ok. unfold f_assign. rewrite Ec, f_arith_self.
      apply rr_step; auto. split; auto. }
    split.
    + intros [v [E K]]. split; [now exists v|]. now apply (G v).
    + intros [[v E] K]. exists v. split; auto. now apply (G v).
  - destruct F as [F B]. rewrite some_ok, ok_bind.
    destruct (W x) as [Sx [Ax Cx]].
    assert (G : forall z, ieval ty s i = Ok z ->
      ok (do r <- f_assign (denote defaults) (ty x) op (s x) (IntOperand (itype ty i) z); Ok (write s x r)) <->
      arith_int_defined (rmax (ty x)) op (q x) z).
    { intros z E. destruct (ieval_sim _ _ _ _ _ W R F E) as [A M].
      destruct (int_conv _ _ _ _ _ W F Sx A B) as [Ec A']. rewrite write_ok. unfold f_assign. rewrite Ec, f_arith_self.
      apply ri_step; auto. split; auto. }
    split.
    + intros [z [E K]]. exists z. split; [now apply (ieval_sim _ _ _ _ _ W R F E)|]. now apply (G z).
    + intros [z [M K]].
      assert (ok (ieval ty s i)) as [z' Ez] by (apply (ieval_ok ty s q i W R F); congruence).
      pose proof (proj2 (ieval_sim _ _ _ _ _ W R F Ez)) as M'. exists z'. split; auto. apply (G z'); auto. congruence.
  - now apply SEQ.
  - rewrite <- (beval_ok ty s q b W R (proj1 F)). destruct (beval (denote defaults) ty s b) as [v|u] eqn:E.
    + rewrite (beval_sim _ _ _ _ _ _ out_defaults W R (proj1 F) E). rewrite (IH s q); auto.
      2: destruct (bmeaning q b); tauto. split; [|tauto]. split; auto. apply ok_ok.
    + split; [intros [s' H]; discriminate|intros [[v H] _]; discriminate].
  - rewrite <- (beval_ok ty s q b W R (proj1 F)). destruct (beval (denote defaults) ty s b) as [v|u] eqn:E.
    + rewrite (beval_sim _ _ _ _ _ _ out_defaults W R (proj1 F) E). destruct (bmeaning q b).
      * rewrite SEQ by (cbn; tauto). split; [|tauto]. intros; split; auto. apply ok_ok.
      * split; [intros _; split; [apply ok_ok|discriminate]|intros; eauto].
    + split; [intros [s' H]; discriminate|intros [[v H] _]; discriminate].
Qed.
