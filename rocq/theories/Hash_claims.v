(** Proofs of the statements in Props_Hash.v. *)

From Coq Require Import ZArith QArith List Bool Lia.
From Verif Require Import Machine Raw Ops Spec Fraction Mixed Mixed_spec Hash.
From Verif Require Import Machine_proofs Value_proofs Ops_proofs Cmp_claims Limits_proofs Literals_proofs Mixed_proofs Hash_proofs.
Import ListNotations.
Open Scope Z_scope.

Lemma c46_canonical_consistent_partial : forall h o t a b,
  wf_rep t -> rsigned t = true -> wf_raw t a -> wf_raw t b -> canonical a -> canonical b ->
  p_cmp (denote o) t Eq (RR a b) = Ok true -> hash_raw h a = hash_raw h b.
Proof.
  intros h o t a b W S A B Ca Cb H.
  destruct (proj1 (c12_equality_exact o t (RR a b) true W S (conj A B) H) eq_refl) as [x [y [X [Y E]]]].
  cbn in X, Y. replace b with a; [reflexivity|]. apply canonical_unique; auto. rewrite X, Y. exact E.
Qed.

Lemma c46_reduced_consistent_partial : forall h o t a b ra rb,
  wf_rep t -> rsigned t = true -> wf_raw t a -> wf_raw t b ->
  p_cmp (denote o) t Eq (RR a b) = Ok true ->
  reduce t a normalize_signs_mode = Ok ra -> reduce t b normalize_signs_mode = Ok rb ->
  hash_raw h ra = hash_raw h rb.
Proof.
  intros h o t a b ra rb W S A B H Ra Rb.
  destruct (proj1 (c12_equality_exact o t (RR a b) true W S (conj A B) H) eq_refl) as [x [y [X [Y E]]]].
  cbn in X, Y.
  destruct (reduce_spec t a _ ra W A Ra) as [_ [Da _]]. destruct (reduce_spec t b _ rb W B Rb) as [_ [Db _]].
  replace rb with ra; [reflexivity|]. apply canonical_unique.
  - eapply reduces_canonical; eauto.
  - eapply reduces_canonical; eauto.
  - eapply same_trans; [eapply reduces_same_value; eauto|].
    eapply same_trans; [|apply same_sym; eapply reduces_same_value; eauto]. rewrite X, Y. exact E.
Qed.

Lemma c46_hash_refuted : exists a b,
  wf_raw int32 a /\ wf_raw int32 b /\ p_cmp (denote defaults) int32 Eq (RR a b) = Ok true /\
  hash_raw std_hash a <> hash_raw std_hash b.
Proof.
  exists (mkRaw 1 2), (mkRaw 2 4). repeat split. vm_compute. discriminate.
Qed.

Lemma xor_cancel : forall a b c x y,
  Z.lxor a x = Z.lxor b y -> Z.lxor b x = Z.lxor c y -> a = c.
Proof.
  intros a b c x y E1 E2.
  assert (A : a = Z.lxor (Z.lxor b y) x) by now rewrite <- E1, Z.lxor_assoc, Z.lxor_nilpotent, Z.lxor_0_r.
  assert (C : c = Z.lxor (Z.lxor b x) y) by now rewrite E2, Z.lxor_assoc, Z.lxor_nilpotent, Z.lxor_0_r.
  rewrite A, C, !Z.lxor_assoc. f_equal. apply Z.lxor_comm.
Qed.

Lemma c46_any_injective_hash_refuted : forall h, h 1 <> h 4 -> exists a b,
  wf_raw int32 a /\ wf_raw int32 b /\ p_cmp (denote defaults) int32 Eq (RR a b) = Ok true /\
  hash_raw h a <> hash_raw h b.
Proof.
  intros h N.
  destruct (Z.eq_dec (hash_raw h (mkRaw 1 1)) (hash_raw h (mkRaw 2 2))) as [E1|E1];
    [|exists (mkRaw 1 1), (mkRaw 2 2); repeat split; auto].
  destruct (Z.eq_dec (hash_raw h (mkRaw 2 1)) (hash_raw h (mkRaw 4 2))) as [E2|E2];
    [|exists (mkRaw 2 1), (mkRaw 4 2); repeat split; auto].
  exfalso. apply N. unfold hash_raw, hash_combine in E1, E2. cbn [num den] in E1, E2.
  eapply xor_cancel; eauto.
Qed.

Lemma c62_mixed_hash : forall hw hf a b,
  normal_form a -> normal_form b -> canonical (fractional a) -> canonical (fractional b) ->
  same_value (mixed_value a) (mixed_value b) -> a = b /\ hash_mixed hw hf a = hash_mixed hw hf b.
Proof.
  intros hw hf [wa fa] [wb fb] A B Ca Cb E. destruct (normal_unique _ _ A B E) as [W F]. cbn in *.
  assert (fa = fb) by (apply canonical_unique; auto). subst. auto.
Qed.

Lemma c62_computed_hash : forall hw hf o1 o2 e1 e2 m1 m2,
  wf_mexpr e1 -> wf_mexpr e2 -> meval (denote o1) e1 = Ok m1 -> meval (denote o2) e2 = Ok m2 ->
  canonical (fractional m1) -> canonical (fractional m2) ->
  same_value (mdenotes e1) (mdenotes e2) -> hash_mixed hw hf m1 = hash_mixed hw hf m2.
Proof.
  intros hw hf o1 o2 e1 e2 m1 m2 W1 W2 H1 H2 C1 C2 E.
  destruct (meval_exact o1 e1 m1 W1 H1) as [_ [N1 X1]]. destruct (meval_exact o2 e2 m2 W2 H2) as [_ [N2 X2]].
  apply c62_mixed_hash; auto. eapply same_trans; [exact X1|]. eapply same_trans; [exact E|]. now apply same_sym.
Qed.

Lemma c100_fraction_hash : forall t n1 n2 d1 d2, wf_rep t -> rbits t <= 64 ->
  wf_raw t (mkRaw n1 d1) -> wf_raw t (mkRaw n2 d2) ->
  (hash_raw std_hash (mkRaw n1 d1) = hash_raw std_hash (mkRaw n2 d1) <-> n1 = n2) /\
  (hash_raw std_hash (mkRaw n1 d1) = hash_raw std_hash (mkRaw n1 d2) <-> d1 mod 2 ^ 63 = d2 mod 2 ^ 63) /\
  (rbits t <= 63 -> hash_raw std_hash (mkRaw n1 d1) = hash_raw std_hash (mkRaw n1 d2) <-> d1 = d2).
Proof.
  intros t n1 n2 d1 d2 W B [N1 D1] [N2 D2]. unfold hash_raw, hash_combine. cbn [num den] in *.
  assert (X : Z.lxor (std_hash n1) (wrap uint64 (std_hash d1 * 2)) = Z.lxor (std_hash n1) (wrap uint64 (std_hash d2 * 2))
              <-> d1 mod 2 ^ 63 = d2 mod 2 ^ 63).
  { rewrite lxor_eq_l, !shl1_hash. rewrite Z.mul_cancel_r by discriminate. reflexivity. }
  split; [|split; [exact X|]].
  - rewrite lxor_eq_r. split; [|congruence]. apply (std_hash_inj t); auto.
  - intros B3. rewrite X. split; [|congruence]. apply (mod_inj t); auto; lia.
Qed.

Lemma c100_mixed_hash : forall t w1 w2 n1 n2 d1 d2, wf_rep t -> rbits t <= 64 ->
  in_rep t w1 = true -> in_rep t w2 = true ->
  (hash_mixed std_hash std_hash (mkMixed w1 (mkRaw n1 d1)) = hash_mixed std_hash std_hash (mkMixed w2 (mkRaw n1 d1)) <->
   w1 = w2) /\
  (hash_mixed std_hash std_hash (mkMixed w1 (mkRaw n1 d1)) = hash_mixed std_hash std_hash (mkMixed w1 (mkRaw n2 d1)) <->
   n1 mod 2 ^ 63 = n2 mod 2 ^ 63) /\
  (hash_mixed std_hash std_hash (mkMixed w1 (mkRaw n1 d1)) = hash_mixed std_hash std_hash (mkMixed w1 (mkRaw n1 d2)) <->
   d1 mod 2 ^ 62 = d2 mod 2 ^ 62).
Proof.
  intros t w1 w2 n1 n2 d1 d2 W B W1 W2. unfold hash_mixed, hash_raw, hash_combine. cbn [whole fractional num den].
  split; [|split].
  - rewrite lxor_eq_r. split; [|congruence]. apply (std_hash_inj t); auto.
  - rewrite lxor_eq_l, !shl1_xor, lxor_eq_r, !shl1_hash, Z.mul_cancel_r by discriminate. reflexivity.
  - rewrite lxor_eq_l, !shl1_xor, lxor_eq_l, !shl1_shl1_hash, Z.mul_cancel_r by discriminate. reflexivity.
Qed.

Lemma c100_one_collision : forall v d, exists n,
  in_rep uint64 n = true /\ hash_raw std_hash (mkRaw n d) = hash_raw std_hash v /\
  forall n', in_rep uint64 n' = true -> hash_raw std_hash (mkRaw n' d) = hash_raw std_hash v -> n' = n.
Proof. exact one_collision. Qed.

