(** Lemmas about expressions with fraction literals. *)

From Coq Require Import ZArith QArith List Bool Lia.
From Verif Require Import Machine Raw Ops Spec Fraction Fraction_spec Literals Overload Litexpr Overload_spec Litexpr_spec Literals_spec.
From Verif Require Import Machine_proofs Value_proofs Ops_proofs Algebra_proofs Fraction_proofs Limits_proofs Literals_proofs Overload_proofs.
Import ListNotations.
Open Scope Z_scope.

Lemma rep_common_cxx : forall r t u, common (cxx r) (Num t) (Num u) = Some (Num (common_rep t u)).
Proof.
  intros r t u. cbn. unfold cxx_common. cbn. destruct (rep_eqb t u) eqn:E; [|reflexivity].
  apply rep_eqb_true in E. subst. now rewrite common_self.
Qed.

Lemma other_neq : forall o o' : nat, o <> o' -> Other o <> Other o'.
Proof. congruence. Qed.

(** What is called for operands of two kinds. *)
Definition callee (k l : kind) : name :=
  match k, l with
  | KFrac _ _, KFrac _ _ => FracFrac
  | KFrac _ _, KInt _ => FracNum
  | KInt _, KFrac _ _ => NumFrac
  | KFrac _ _, KLit _ => FracDen
  | _, _ => NumDen
  end.

Lemma resolve_kinds : forall r op k l k', binary_kind op k l = Some k' ->
  resolve (cxx r) (OArith op) (type_of_kind k) (type_of_kind l) false = Call (callee k l) 0 (type_of_kind k').
Proof.
  intros r op [t|s|t o] [u|s'|u o'] k' H; cbn [binary_kind] in H; try discriminate; cbn [type_of_kind callee].
  - destruct op; try discriminate. inversion H; subst. apply num_den.
  - inversion H; subst. apply num_left. apply rep_common_cxx.
  - inversion H; subst. apply num_right. apply rep_common_cxx.
  - destruct op, o; try discriminate. inversion H; subst. apply frac_den.
  - destruct (Nat.eqb_spec o o'); [|discriminate]. inversion H; subst. apply same_arith, rep_common_cxx.
Qed.

Lemma not_called : forall r op k l, binary_kind op k l = None ->
  called (resolve (cxx r) (OArith op) (type_of_kind k) (type_of_kind l) false) = None.
Proof.
  intros r op k l H. destruct k as [t|s|t o], l as [u|s'|u o']; cbn [binary_kind] in H; cbn [type_of_kind]; try discriminate H.
  - destruct r, op; reflexivity.
  - destruct r, op; try discriminate H; reflexivity.
  - destruct r, op; reflexivity.
  - destruct r, op, s, s'; reflexivity.
  - destruct r, op, s; reflexivity.
  - destruct op, o; try discriminate H;
    try (rewrite frac_den_differ; [reflexivity|discriminate|discriminate]); destruct r; reflexivity.
  - destruct (Nat.eqb_spec o o'); [discriminate|]. rewrite differ_arith; [reflexivity|congruence].
Qed.

Lemma unary_kinds : forall w m k k', unary_kind m k = Some k' ->
  resolve_unary w m (type_of_kind k) = Call (match k with KFrac _ _ => FracUnary | _ => DenUnary end) 0 (type_of_kind k').
Proof.
  intros w m [t|s|t o] k' H; inversion H; subst; destruct m; try destruct s; reflexivity.
Qed.

Lemma unary_not : forall w m k, unary_kind m k = None -> resolve_unary w m (type_of_kind k) = NoMatch.
Proof. intros w m [t|s|t o] H; try discriminate H. reflexivity. Qed.

Lemma called_kind : forall n k, n <> Deleted -> called (Call n 0 (type_of_kind k)) = Some (type_of_kind k).
Proof. intros n [t|s|t o] H; destruct n; try reflexivity; now elim H. Qed.

Lemma types : forall r e, type_of (cxx r) e = option_map type_of_kind (kind_of e).
Proof.
  intros r. induction e as [t z|n|t o v|m e IH|op l IHl x IHx]; cbn [type_of kind_of]; try reflexivity.
  - rewrite IH. destruct (kind_of e) as [k|]; [|reflexivity]. cbn [option_map].
    destruct (unary_kind m k) as [k'|] eqn:E.
    + rewrite (unary_kinds _ _ _ _ E). apply called_kind. destruct k; discriminate.
    + now rewrite (unary_not _ _ _ E).
  - rewrite IHl, IHx. destruct (kind_of l) as [k|], (kind_of x) as [k'|]; try reflexivity. cbn [option_map].
    destruct (binary_kind op k k') as [k2|] eqn:E.
    + rewrite (resolve_kinds r _ _ _ _ E). apply called_kind. destruct k, k'; discriminate.
    + now apply not_called.
Qed.

Lemma value_type : forall v, type_of_value v = type_of_kind (kind_of_value v).
Proof. intros [t z|s z|t o v]; reflexivity. Qed.

Ltac binds H :=
  repeat match type of H with
  | bind ?x _ = Ok _ => let E := fresh "E" in let a := fresh "x" in destruct x as [a|] eqn:E; [cbn [bind] in H|discriminate H]
  end.

(** Evaluation keeps the kind and stays within the types. *)
Lemma f_arith_in : forall o t u op a r,
  match a with
  | RR x y => wf_rep t /\ wf_raw t x /\ wf_rep u /\ wf_raw u y
  | RI x z => wf_rep t /\ wf_raw t x /\ wf_rep u /\ in_rep u z = true
  | IR z y => wf_rep t /\ in_rep t z = true /\ wf_rep u /\ wf_raw u y
  end ->
  f_arith (denote o) t u op a = Ok r -> wf_rep (common_rep t u) /\ wf_raw (common_rep t u) r.
Proof.
  intros o t u op a r A H. assert (W : wf_rep (common_rep t u)) by (apply common_wf; destruct a; tauto).
  split; [exact W|]. unfold f_arith in H. eapply arith_wf; [exact W| |exact H].
  destruct a; cbn in A |- *; destruct A as [A1 [A2 [A3 A4]]]; split; auto using conv_raw_wf, conv_int_in.
Qed.

Lemma sound_value : forall r pol e k x, kind_of e = Some k -> proper e -> leval (cxx r) pol e = Ok x ->
  exists v, x = Some v /\ kind_of_value v = k /\ proper_value v.
Proof.
  intros r pol. induction e as [t z|n|t o v|m e IH|op l IHl y IHy]; intros k x K P H; cbn [kind_of proper leval] in K, P, H.
  - inversion K; inversion H; subst. eexists. split; [reflexivity|]. split; [reflexivity|exact P].
  - inversion K; inversion H; subst. eexists. split; [reflexivity|]. split; [reflexivity|exact I].
  - inversion K; inversion H; subst. eexists. split; [reflexivity|]. split; [reflexivity|exact P].
  - destruct (kind_of e) as [k0|] eqn:K0; [|discriminate]. binds H.
    destruct (IH _ _ eq_refl P eq_refl) as [v [-> [V1 V2]]].
    rewrite value_type, V1, (unary_kinds _ _ _ _ K) in H.
    destruct v as [t z|s z|t o v]; cbn [kind_of_value] in V1; subst k0; cbn [unary_kind] in K; inversion K; subst; clear K; cbn [type_of_kind call_unary] in H.
    + destruct m; cbv iota in H; binds H; inversion H; subst; (eexists; split; [reflexivity|]; split; [reflexivity|exact I]).
    + destruct V2 as [V2 V3]. destruct m; cbv iota in H; binds H; inversion H; subst; (eexists; split; [reflexivity|]; split; [reflexivity|]);
      split; auto. eapply negate_wf; eauto.
  - destruct (kind_of l) as [k1|] eqn:K1; [|discriminate]. destruct (kind_of y) as [k2|] eqn:K2; [|discriminate].
    destruct P as [P1 P2]. binds H.
    destruct (IHl _ _ eq_refl P1 eq_refl) as [v [-> [V1 V2]]].
    destruct (IHy _ _ eq_refl P2 eq_refl) as [v' [-> [V3 V4]]].
    rewrite !value_type, V1, V3, (resolve_kinds r _ _ _ _ K) in H. subst k1 k2.
    destruct v as [t z|s z|t o v], v' as [u z'|s' z'|u o' v']; cbn [kind_of_value binary_kind] in K; try discriminate K; cbn [kind_of_value callee] in H.
    + destruct op; try discriminate K. inversion K; subst. cbn [type_of_kind call_binary] in H. inversion H; subst.
      eexists. split; [reflexivity|]. split; [reflexivity|]. destruct V2 as [W V]. split; [exact W|].
      split; [exact V|]. now apply wrap_in.
    + inversion K; subst. cbn [type_of_kind call_binary] in H. binds H. inversion H; subst. eexists. split; [reflexivity|]. split; [reflexivity|].
      eapply f_arith_in; [|eassumption]. cbn in V2, V4. tauto.
    + inversion K; subst. cbn [type_of_kind call_binary] in H. binds H. inversion H; subst. eexists. split; [reflexivity|]. split; [reflexivity|].
      eapply f_arith_in; [|eassumption]. cbn in V2, V4. tauto.
    + destruct op, o; try discriminate K. inversion K; subst. cbn [type_of_kind call_binary] in H. binds H. inversion H; subst.
      eexists. split; [reflexivity|]. split; [reflexivity|]. destruct V2 as [W V].
      unfold literal_divide_fraction in *. rewrite <- (common_self t).
      eapply f_arith_in; [|eassumption]. cbn. split; [exact W|]. split; [exact V|]. split; [exact W|]. now apply wrap_in.
    + destruct (Nat.eqb_spec o o'); [|discriminate]. subst. inversion K; subst. cbn [type_of_kind call_binary] in H. binds H. inversion H; subst.
      eexists. split; [reflexivity|]. split; [reflexivity|].
      eapply f_arith_in; [|eassumption]. cbn in V2, V4. tauto.
Qed.

(** Exactness. *)
Lemma exact_opt_both : forall op x x' y y', same_value x x' -> same_value y y' -> same_value (exact_opt op x y) (exact_opt op x' y').
Proof. intros op x x' y y' H1 H2. now rewrite H1, H2. Qed.

Definition value_of (v : lval) : option Q :=
  match v with VInt _ z | VLit _ z => Some (inject_Z z) | VFrac _ _ v => value v end.

Lemma f_arith_value : forall o t u op a r,
  match a with
  | RR x y => wf_rep t /\ wf_raw t x /\ wf_rep u /\ wf_raw u y
  | RI x z => wf_rep t /\ wf_raw t x /\ wf_rep u /\ in_rep u z = true
  | IR z y => wf_rep t /\ in_rep t z = true /\ wf_rep u /\ wf_raw u y
  end ->
  rsigned (common_rep t u) = true -> right_value a <> None ->
  f_arith (denote o) t u op a = Ok r -> same_value (value r) (exact_opt op (left_value a) (right_value a)).
Proof.
  intros o t u op a r A S D H.
  assert (R : wf_reps t u a) by (destruct a; cbn; unfold wf_rep in *; destruct A as [A1 [A2 [A3 A4]]]; lia).
  assert (A' : wf_args2 t u a) by (destruct a; cbn; tauto).
  assert (W : wf_rep (common_rep t u)) by (apply common_wf; destruct a; tauto).
  rewrite f_arith_mixed in H by auto.
  apply (denote_exact_opt o (common_rep t u) op a r); auto.
  destruct (common_args_id t u a R A') as [_ [A'' _]]; auto.
Qed.

Lemma exact_opt_some : forall op x y q, exact_opt op x y = Some q -> x <> None /\ y <> None.
Proof. intros op [x|] [y|] q H; try discriminate H. split; discriminate. Qed.

Lemma same_some : forall x y, same_value x y -> y <> None -> x <> None.
Proof. intros [x|] [y|] H N; cbn in H; congruence || tauto. Qed.

Lemma lit_value : forall r pol e s x, kind_of e = Some (KLit s) -> proper e -> sized e ->
  leval (cxx r) pol e = Ok x -> x = Some (VLit s (lit_number e)).
Proof.
  intros r pol. induction e as [t z|n|t o v|m e IH|op l IHl y IHy]; intros s x K P Z H; try discriminate K.
  - inversion K; inversion H; subst. reflexivity.
  - cbn [kind_of proper sized leval lit_number] in K, P, Z, H |- *.
    destruct (kind_of e) as [[t|s0|t o]|] eqn:K0; try discriminate K.
    inversion K; subst. destruct Z as [Z Zm]. binds H. pose proof (IH _ _ eq_refl P Z eq_refl) as ->.
    cbn [type_of_value] in H. change (lit_type s0) with (type_of_kind (KLit s0)) in H.
    rewrite (unary_kinds _ _ _ _ K) in H. cbn [type_of_kind call_unary] in H.
    destruct m; [|now inversion H]. specialize (Zm eq_refl). unfold is_literal in Zm. rewrite K0 in Zm.
    rewrite literal_neg_eq in H by exact Zm. now inversion H.
  - cbn [kind_of] in K. destruct (kind_of l) as [k1|]; [|discriminate]. destruct (kind_of y) as [k2|]; [|discriminate].
    destruct k1, k2; cbn in K; try discriminate K.
    + destruct op; discriminate K.
    + destruct op, o; discriminate K.
    + destruct (o =? o0)%nat; discriminate K.
Qed.

Lemma exact_value : forall r pol e k x q, kind_of e = Some k -> proper e -> sized e -> spelled e = Some q ->
  leval (cxx r) pol e = Ok x -> exists v, x = Some v /\ kind_of_value v = k /\ same_value (value_of v) (Some q).
Proof.
  intros r pol. induction e as [t z|n|t o v|m e IH|op l IHl y IHy]; intros k x q K P Z Q H.
  - inversion K; inversion H; inversion Q; subst. eexists. split; [reflexivity|]. split; [reflexivity|]. reflexivity.
  - inversion K; inversion H; inversion Q; subst. eexists. split; [reflexivity|]. split; [reflexivity|]. reflexivity.
  - inversion K; inversion H; subst. cbn in Q. eexists. split; [reflexivity|]. split; [reflexivity|]. cbn [value_of]. rewrite Q. reflexivity.
  - cbn [kind_of proper sized spelled leval] in K, P, Z, Q, H.
    destruct (kind_of e) as [k0|] eqn:K0; [|discriminate]. destruct (spelled e) as [q0|] eqn:Q0; [|discriminate].
    destruct Z as [Z Zm]. binds H.
    destruct (sound_value r pol _ _ _ K0 P E) as [v [-> [V1 V2]]].
    destruct (IH _ _ _ eq_refl P Z eq_refl eq_refl) as [v' [Ev [_ V3]]]. inversion Ev; subst v'. clear Ev.
    rewrite value_type, V1, (unary_kinds _ _ _ _ K) in H.
    destruct v as [t z|s z|t o v]; cbn [kind_of_value] in V1; subst k0; cbn [unary_kind] in K; inversion K; subst; clear K; cbn [type_of_kind call_unary] in H.
    + pose proof (lit_value _ _ _ _ _ K0 P Z E) as L. inversion L; subst. inversion Q; subst.
      destruct m; cbv iota in H; binds H.
      * specialize (Zm eq_refl). unfold is_literal in Zm. rewrite K0 in Zm. rewrite literal_neg_eq in E0 by exact Zm.
        inversion E0; subst. inversion H; subst. eexists. split; [reflexivity|]. split; [reflexivity|].
        cbn in V3 |- *. rewrite <- V3. rewrite inject_Z_opp. reflexivity.
      * inversion H; subst. eexists. split; [reflexivity|]. split; [reflexivity|]. exact V3.
    + destruct V2 as [V2 V4]. inversion Q; subst. destruct m; cbv iota in H; binds H; inversion H; subst; (eexists; split; [reflexivity|]; split; [reflexivity|]).
      * specialize (Zm eq_refl). unfold is_literal in Zm. rewrite K0 in Zm. specialize (Zm _ _ K0).
        unfold f_negate in E0. cbn [value_of] in V3 |- *.
        eapply same_trans; [exact (denote_negate _ _ _ _ V2 Zm V4 E0)|].
        destruct (value v) as [qv|]; cbn in V3 |- *; [now rewrite V3|contradiction].
      * exact V3.
  - cbn [kind_of proper sized spelled leval] in K, P, Z, Q, H.
    destruct (kind_of l) as [k1|] eqn:K1; [|discriminate]. destruct (kind_of y) as [k2|] eqn:K2; [|discriminate].
    destruct P as [P1 P2]. destruct Z as [Z1 [Z2 [Z3 Z4]]]. binds H.
    destruct (exact_opt_some _ _ _ _ Q) as [N1 N2].
    destruct (spelled l) as [q1|] eqn:Q1; [|congruence]. destruct (spelled y) as [q2|] eqn:Q2; [|congruence].
    destruct (sound_value r pol _ _ _ K1 P1 E) as [v [-> [V1 V2]]].
    destruct (sound_value r pol _ _ _ K2 P2 E0) as [v' [-> [V3 V4]]].
    destruct (IHl _ _ _ eq_refl P1 Z1 eq_refl eq_refl) as [w [Ew [_ X1]]]. inversion Ew; subst w. clear Ew.
    destruct (IHy _ _ _ eq_refl P2 Z2 eq_refl eq_refl) as [w [Ew [_ X2]]]. inversion Ew; subst w. clear Ew.
    assert (S : forall t o, k = KFrac t o -> rsigned t = true).
    { intros t o ->. apply (Z3 t o). cbn [kind_of]; rewrite ?K1, ?K2; exact K. }
    assert (F : is_literal y = true -> forall t o, k = KFrac t o -> in_rep t (lit_number y) = true).
    { intros Y t o ->. apply (Z4 Y t o). cbn [kind_of]; rewrite ?K1, ?K2; exact K. }
    rewrite !value_type, V1, V3, (resolve_kinds r _ _ _ _ K) in H. rewrite <- Q.
    pose proof (exact_opt_both op _ _ _ _ X1 X2) as X. subst k1 k2.
    destruct v as [t z|s z|t o v], v' as [u z'|s' z'|u o' v']; cbn [kind_of_value binary_kind] in K; try discriminate K; cbn [kind_of_value callee] in H.
    + destruct op; try discriminate K. inversion K; subst. cbn [type_of_kind call_binary] in H. inversion H; subst.
      eexists. split; [reflexivity|]. split; [reflexivity|]. pose proof (lit_value _ _ _ _ _ K2 P2 Z2 E0) as L. inversion L; subst.
      destruct V2 as [W V]. assert (D : in_rep t (lit_number y) = true).
      { apply (F ltac:(unfold is_literal; now rewrite K2) t 0%nat eq_refl). }
      cbn [value_of]. rewrite literal_int_ok by assumption. eapply same_trans; [|exact X].
      cbn [value_of exact_opt exact]. unfold value. cbn [num den].
      destruct (Z.eqb_spec (lit_number y) 0) as [->|N]; [reflexivity|].
      replace (Qeq_bool (inject_Z (lit_number y)) 0) with false; [reflexivity|].
      symmetry. apply not_true_is_false. intros B. apply Qeq_bool_iff in B. now apply iz_nz in B.
    + inversion K; subst. cbn [type_of_kind call_binary] in H. binds H. inversion H; subst. eexists. split; [reflexivity|]. split; [reflexivity|].
      cbn in V2, V4. eapply same_trans; [|exact X]. cbn [value_of].
      refine (f_arith_value (pol o') t u op (IR z v') _ _ _ _ _); [tauto|exact (S _ _ eq_refl)| |eassumption].
      * cbn. eapply same_some; [exact X2|discriminate].
    + inversion K; subst. cbn [type_of_kind call_binary] in H. binds H. inversion H; subst. eexists. split; [reflexivity|]. split; [reflexivity|].
      cbn in V2, V4. eapply same_trans; [|exact X]. cbn [value_of].
      refine (f_arith_value (pol o) t u op (RI v z') _ _ _ _ _); [tauto|exact (S _ _ eq_refl)| |eassumption].
      * cbn. discriminate.
    + destruct op, o; try discriminate K. inversion K; subst. cbn [type_of_kind call_binary] in H. binds H. inversion H; subst.
      eexists. split; [reflexivity|]. split; [reflexivity|]. pose proof (lit_value _ _ _ _ _ K2 P2 Z2 E0) as L. inversion L; subst.
      destruct V2 as [W V]. assert (D : in_rep t (lit_number y) = true).
      { apply (F ltac:(unfold is_literal; now rewrite K2) t 0%nat eq_refl). }
      eapply same_trans; [|exact X]. cbn [value_of].
      apply (literal_divide_fraction_exact (pol 0%nat) t v); auto. exact (S _ _ eq_refl).
    + destruct (Nat.eqb_spec o o'); [|discriminate]. subst. inversion K; subst. cbn [type_of_kind call_binary] in H. binds H. inversion H; subst.
      eexists. split; [reflexivity|]. split; [reflexivity|].
      cbn in V2, V4. eapply same_trans; [|exact X]. cbn [value_of].
      refine (f_arith_value (pol o') t u op (RR v v') _ _ _ _ _); [tauto|exact (S _ _ eq_refl)| |eassumption].
      * cbn. eapply same_some; [exact X2|discriminate].
Qed.

(** Only the policy of the fractions in an expression matters. *)
Lemma own_policy : forall r pol pol' e k, kind_of e = Some k -> proper e ->
  (forall t o, k = KFrac t o -> pol o = pol' o) -> leval (cxx r) pol e = leval (cxx r) pol' e.
Proof.
  intros r pol pol'. induction e as [t z|n|t o v|m e IH|op l IHl y IHy]; intros k K P A; cbn [kind_of proper] in K, P; try reflexivity.
  - destruct (kind_of e) as [k0|] eqn:K0; [|discriminate]. cbn [leval].
    rewrite (IH _ eq_refl P) by (intros t o ->; inversion K; subst; now apply (A t o)).
    destruct (leval (cxx r) pol' e) as [x|] eqn:E; cbn [bind]; [|reflexivity].
    destruct (sound_value r pol' e k0 x K0 P E) as [v [-> [V1 V2]]].
    rewrite value_type, V1, (unary_kinds _ _ _ _ K). subst k0.
    destruct v as [t z|s z|t o v]; cbn [kind_of_value unary_kind] in K; inversion K; subst; [reflexivity|].
    cbn [kind_of_value type_of_kind call_unary]. now rewrite (A t o eq_refl).
  - destruct (kind_of l) as [k1|] eqn:K1; [|discriminate]. destruct (kind_of y) as [k2|] eqn:K2; [|discriminate].
    destruct P as [P1 P2]. cbn [leval].
    assert (A1 : forall t o, k1 = KFrac t o -> pol o = pol' o).
    { intros t o ->. destruct k2 as [u|s|u o']; cbn [binary_kind] in K.
      - inversion K; subst. now apply (A (common_rep t u) o).
      - destruct op, o; try discriminate K. inversion K; subst. now apply (A t 0%nat).
      - destruct (Nat.eqb_spec o o'); [|discriminate]. inversion K; subst. now apply (A (common_rep t u) o'). }
    assert (A2 : forall t o, k2 = KFrac t o -> pol o = pol' o).
    { intros t o ->. destruct k1 as [u|s|u o']; cbn [binary_kind] in K.
      - inversion K; subst. now apply (A (common_rep u t) o).
      - discriminate K.
      - destruct (Nat.eqb_spec o' o); [|discriminate]. inversion K; subst. now apply (A (common_rep u t) o). }
    rewrite (IHl _ eq_refl P1 A1), (IHy _ eq_refl P2 A2).
    destruct (leval (cxx r) pol' l) as [x|] eqn:E; cbn [bind]; [|reflexivity].
    destruct (leval (cxx r) pol' y) as [x'|] eqn:E'; cbn [bind]; [|reflexivity].
    destruct (sound_value r pol' l k1 x K1 P1 E) as [v [-> [V1 V2]]].
    destruct (sound_value r pol' y k2 x' K2 P2 E') as [v' [-> [V3 V4]]].
    rewrite !value_type, V1, V3, (resolve_kinds r _ _ _ _ K). subst k1 k2.
    destruct v as [t z|s z|t o v], v' as [u z'|s' z'|u o' v']; cbn [kind_of_value binary_kind] in K; try discriminate K; cbn [kind_of_value callee].
    + destruct op; try discriminate K. inversion K; subst. reflexivity.
    + inversion K; subst. cbn [type_of_kind call_binary]. now rewrite (A2 u o' eq_refl).
    + inversion K; subst. cbn [type_of_kind call_binary]. now rewrite (A1 t o eq_refl).
    + destruct op, o; try discriminate K. inversion K; subst. cbn [type_of_kind call_binary]. now rewrite (A1 t 0%nat eq_refl).
    + destruct (Nat.eqb_spec o o'); [|discriminate]. subst. inversion K; subst. cbn [type_of_kind call_binary]. now rewrite (A1 t o' eq_refl).
Qed.

Lemma f_arith_canonical : forall o t u op a r,
  match a with
  | RR x y => wf_rep t /\ wf_raw t x /\ wf_rep u /\ wf_raw u y
  | RI x z => wf_rep t /\ wf_raw t x /\ wf_rep u /\ in_rep u z = true
  | IR z y => wf_rep t /\ in_rep t z = true /\ wf_rep u /\ wf_raw u y
  end -> output_canonical o = true ->
  f_arith (denote o) t u op a = Ok r -> canonical r.
Proof.
  intros o t u op a r A C H. assert (W : wf_rep (common_rep t u)) by (apply common_wf; destruct a; tauto).
  unfold f_arith in H. eapply denote_canonical; [exact W| |exact C|exact H].
  destruct a; cbn in A |- *; destruct A as [A1 [A2 [A3 A4]]]; split; auto using conv_raw_wf, conv_int_in.
Qed.

(** Results of a reducing policy are in lowest terms. *)
Lemma minus_canonical : forall r pol e t o v, kind_of e = Some (KFrac t o) -> proper e -> output_canonical (pol o) = true ->
  leval (cxx r) pol (LUnary true e) = Ok (Some (VFrac t o v)) -> canonical v.
Proof.
  intros r pol e t o v K P C H. cbn [leval] in H. binds H.
  destruct (sound_value r pol e _ _ K P E) as [w [-> [V1 V2]]].
  rewrite value_type, V1, (unary_kinds _ true (KFrac t o) _ eq_refl) in H.
  destruct w as [t' z|s z|t' o' w]; try discriminate V1. inversion V1; subst. cbn [type_of_kind call_unary] in H.
  binds H. inversion H; subst. destruct V2 as [W V]. eapply denote_negate_canonical; eauto.
Qed.

Lemma binary_canonical : forall r pol op l y t o v, kind_of (LBinary op l y) = Some (KFrac t o) -> proper (LBinary op l y) ->
  (exists u, kind_of l = Some (KFrac u o) \/ kind_of y = Some (KFrac u o)) -> output_canonical (pol o) = true ->
  leval (cxx r) pol (LBinary op l y) = Ok (Some (VFrac t o v)) -> canonical v.
Proof.
  intros r pol op l y t o v K [P1 P2] F C H. cbn [leval kind_of] in H, K.
  destruct (kind_of l) as [k1|] eqn:K1; [|discriminate]. destruct (kind_of y) as [k2|] eqn:K2; [|discriminate].
  binds H.
  destruct (sound_value r pol l _ _ K1 P1 E) as [w [-> [V1 V2]]].
  destruct (sound_value r pol y _ _ K2 P2 E0) as [w' [-> [V3 V4]]].
  rewrite !value_type, V1, V3, (resolve_kinds r _ _ _ _ K) in H. subst k1 k2.
  destruct w as [t1 z|s z|t1 o1 w], w' as [u z'|s' z'|u o' w']; cbn [kind_of_value binary_kind] in K; try discriminate K; cbn [kind_of_value callee type_of_kind call_binary] in H.
  - destruct F as [u' [F|F]]; discriminate F.
  - inversion K; subst. binds H. inversion H; subst. cbn in V2, V4. eapply f_arith_canonical; [|exact C|eassumption]. cbn; tauto.
  - inversion K; subst. binds H. inversion H; subst. cbn in V2, V4. eapply f_arith_canonical; [|exact C|eassumption]. cbn; tauto.
  - destruct op, o1; try discriminate K. inversion K; subst. binds H. inversion H; subst. destruct V2 as [W V].
    unfold literal_divide_fraction in *. eapply f_arith_canonical; [|exact C|eassumption].
    cbn. split; [exact W|]. split; [exact V|]. split; [exact W|]. now apply wrap_in.
  - destruct (Nat.eqb_spec o1 o'); [|discriminate]. subst. inversion K; subst. binds H. inversion H; subst.
    cbn in V2, V4. eapply f_arith_canonical; [|exact C|eassumption]. cbn; tauto.
Qed.
