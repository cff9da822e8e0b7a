(** Proofs of the statements in Props_Cmp.v. *)

From Coq Require Import ZArith QArith Qabs Bool Lia.
From Verif Require Import Machine Raw Ops Spec.
From Verif Require Import Machine_proofs Value_proofs Ops_proofs Total_proofs Cmp_proofs Order_proofs Reverse_proofs Laws_proofs.
Open Scope Z_scope.

Lemma c12_equality_exact : forall o t a b,
  wf_rep t -> rsigned t = true -> wf_args t a ->
  p_cmp (denote o) t Eq a = Ok b ->
  (b = true <-> exists x y, left_value a = Some x /\ right_value a = Some y /\ (x == y)%Q).
Proof.
  intros o t a b W S A H. apply denote_cmp in H; auto; [|now left]. subst.
  destruct (left_value a) as [x|], (right_value a) as [y|]; cbn [exact_cmp_opt exact_cmp];
    try (split; [discriminate|intros [? [? [? [? ?]]]]; congruence]).
  rewrite Qeq_bool_iff. split; [intros; exists x, y; auto|intros [x' [y' [E1 [E2 E3]]]]; congruence].
Qed.

Lemma c12_not_equal_is_negation : forall o t a,
  p_cmp (denote o) t Ne a = (do b <- p_cmp (denote o) t Eq a; Ok (negb b)).
Proof. exact denote_ne. Qed.

Lemma c12_equality_total : forall o t a B,
  wf_rep t -> wf_args t a -> args_bounded B a -> B <= rmax t -> B * B <= rmax t ->
  exists b, p_cmp (denote o) t Eq a = Ok b /\
  (b = true <-> exists x y, left_value a = Some x /\ right_value a = Some y /\ (x == y)%Q).
Proof.
  intros o t a B W A H1 H2 H3.
  rewrite (denote_cmp_total o t Eq a B) by auto. eexists; split; [reflexivity|].
  destruct (left_value a) as [x|], (right_value a) as [y|]; cbn [exact_cmp_opt exact_cmp];
    try (split; [discriminate|intros [? [? [? [? ?]]]]; congruence]).
  rewrite Qeq_bool_iff. split; [intros; exists x, y; auto|intros [x' [y' [E1 [E2 E3]]]]; congruence].
Qed.

Lemma exact_lt_char : forall op x y, op = Lt \/ op = Le ->
  (exact_cmp op x y = true <-> match op with Lt => x < y | _ => x <= y end)%Q.
Proof.
  intros op x y [-> | ->].
  - apply exact_lt_iff.
  - apply Qle_bool_iff.
Qed.

Lemma c13_order_exact : forall o t l r b x y op,
  wf_rep t -> rsigned t = true -> wf_raw t l -> wf_raw t r ->
  built_on_safe o = true \/ normalises_inputs o = true ->
  value l = Some x -> value r = Some y -> op = Lt \/ op = Le ->
  p_cmp (denote o) t op (RR l r) = Ok b ->
  (b = true <-> match op with Lt => x < y | _ => x <= y end)%Q.
Proof.
  intros o t l r b x y op W S Wl Wr C L R O H.
  apply denote_cmp in H; auto.
  - cbn [left_value right_value] in H. rewrite L, R in H. subst. now apply exact_lt_char.
  - split; auto.
  - right. destruct C as [C|C]; [right; right; now left|now left].
Qed.

Lemma c13_fast_order_same_sign : forall o t l r b x y op,
  wf_rep t -> rsigned t = true -> wf_raw t l -> wf_raw t r -> 0 < den l * den r ->
  value l = Some x -> value r = Some y -> op = Lt \/ op = Le ->
  p_cmp (denote o) t op (RR l r) = Ok b ->
  (b = true <-> match op with Lt => x < y | _ => x <= y end)%Q.
Proof.
  intros o t l r b x y op W S Wl Wr C L R O H.
  apply denote_cmp in H; auto.
  - cbn [left_value right_value] in H. rewrite L, R in H. subst. now apply exact_lt_char.
  - split; auto.
  - right. right; right. now right.
Qed.

Lemma c13_fast_order_reversed : forall o t l r b x y op,
  wf_rep t -> rsigned t = true -> wf_raw t l -> wf_raw t r -> den l * den r < 0 ->
  built_on_safe o = false -> normalises_inputs o = false ->
  value l = Some x -> value r = Some y -> op = Lt \/ op = Le ->
  p_cmp (denote o) t op (RR l r) = Ok b ->
  (b = true <-> match op with Lt => y < x | _ => y <= x end)%Q.
Proof.
  intros o t l r b x y op W S Wl Wr D C1 C2 L R O H.
  apply denote_cmp_reversed in H; auto.
  - cbn [left_value right_value] in H. rewrite L, R in H. subst.
    destruct O as [-> | ->]; cbn [reverse exact_cmp_opt].
    + cbn [exact_cmp]. rewrite <- exact_lt_iff. reflexivity.
    + cbn [exact_cmp]. apply Qle_bool_iff.
  - split; auto.
  - split; cbn [left_value right_value]; congruence.
  - split; auto.
Qed.

Lemma c13_fast_order_refuted : exists a b c,
  value a <> None /\ value b <> None /\ value c <> None /\
  p_cmp fast int32 Lt (RR a b) = Ok true /\
  p_cmp fast int32 Lt (RR b c) = Ok true /\
  p_cmp fast int32 Lt (RR c a) = Ok true.
Proof.
  exists (mkRaw 0 1), (mkRaw 2 (-1)), (mkRaw (-2) (-1)).
  repeat split; vm_compute; congruence.
Qed.

Lemma c13_order_total : forall o t op a B,
  wf_rep t -> wf_args t a -> args_bounded B a -> B <= rmax t -> B * B <= rmax t ->
  order_domain o a ->
  p_cmp (denote o) t op a = Ok (exact_cmp_opt op (left_value a) (right_value a)).
Proof. intros. eapply denote_cmp_total; eauto. Qed.

Lemma some_inj : forall A (x y : A), Some x = Some y -> x = y.
Proof. congruence. Qed.

Lemma c14_order_positive : forall o t f i b c x op,
  wf_rep t -> rsigned t = true -> wf_raw t f -> in_rep t i = true -> 0 < den f ->
  value f = Some x -> op = Lt \/ op = Le ->
  p_cmp (denote o) t op (RI f i) = Ok b -> p_cmp (denote o) t op (IR i f) = Ok c ->
  (b = true <-> match op with Lt => x < inject_Z i | _ => x <= inject_Z i end)%Q /\
  (c = true <-> match op with Lt => inject_Z i < x | _ => inject_Z i <= x end)%Q.
Proof.
  intros o t f i b c x op W S Wf Wi P V O H1 H2.
  apply denote_cmp in H1; [|auto|auto|split; auto|right; right; left; exact P].
  apply denote_cmp in H2; [|auto|auto|split; auto|right; right; left; exact P].
  cbn [left_value right_value] in H1, H2. rewrite V in H1, H2. subst.
  split; now apply exact_lt_char.
Qed.

Lemma c14_order_negative_reversed : forall o t f i b c x op,
  wf_rep t -> rsigned t = true -> wf_raw t f -> in_rep t i = true -> den f < 0 ->
  normalises_inputs o = false ->
  value f = Some x -> op = Lt \/ op = Le ->
  p_cmp (denote o) t op (RI f i) = Ok b -> p_cmp (denote o) t op (IR i f) = Ok c ->
  (b = true <-> match op with Lt => inject_Z i < x | _ => inject_Z i <= x end)%Q /\
  (c = true <-> match op with Lt => x < inject_Z i | _ => x <= inject_Z i end)%Q.
Proof.
  intros o t f i b c x op W S Wf Wi P N V O H1 H2.
  apply denote_cmp_reversed in H1; [|auto|auto|split; auto|split; cbn; congruence|split; auto].
  apply denote_cmp_reversed in H2; [|auto|auto|split; auto|split; cbn; congruence|split; auto].
  cbn [left_value right_value] in H1, H2. rewrite V in H1, H2. subst.
  destruct O as [-> | ->]; cbn [reverse exact_cmp_opt exact_cmp]; split;
    try apply Qle_bool_iff; rewrite <- exact_lt_iff; reflexivity.
Qed.

Lemma c14_order_normalising : forall o t f i b c x op,
  wf_rep t -> rsigned t = true -> wf_raw t f -> in_rep t i = true ->
  normalises_inputs o = true ->
  value f = Some x -> op = Lt \/ op = Le ->
  p_cmp (denote o) t op (RI f i) = Ok b -> p_cmp (denote o) t op (IR i f) = Ok c ->
  (b = true <-> match op with Lt => x < inject_Z i | _ => x <= inject_Z i end)%Q /\
  (c = true <-> match op with Lt => inject_Z i < x | _ => inject_Z i <= x end)%Q.
Proof.
  intros o t f i b c x op W S Wf Wi N V O H1 H2.
  apply denote_cmp in H1; [|auto|auto|split; auto|right; left; exact N].
  apply denote_cmp in H2; [|auto|auto|split; auto|right; left; exact N].
  cbn [left_value right_value] in H1, H2. rewrite V in H1, H2. subst.
  split; now apply exact_lt_char.
Qed.

Lemma c14_order_refuted : exists f x, value f = Some x /\ (x < 0)%Q /\
  p_cmp (denote defaults) int32 Lt (RI f 0) = Ok false /\
  p_cmp (denote defaults) int32 Gt (RI f 0) = Ok true.
Proof.
  exists (mkRaw 1 (-2)). eexists. split; [reflexivity|]. repeat split; vm_compute; reflexivity.
Qed.

Lemma c15_strict_weak_ordering : forall o t,
  wf_rep t -> rsigned t = true ->
  built_on_safe o = true \/ normalises_inputs o = true ->
  (forall a v, wf_raw t a -> p_cmp (denote o) t Lt (RR a a) = Ok v -> v = false) /\
  (forall a b v, wf_raw t a -> wf_raw t b ->
     p_cmp (denote o) t Lt (RR a b) = Ok true -> p_cmp (denote o) t Lt (RR b a) = Ok v -> v = false) /\
  (forall a b c v, wf_raw t a -> wf_raw t b -> wf_raw t c ->
     p_cmp (denote o) t Lt (RR a b) = Ok true -> p_cmp (denote o) t Lt (RR b c) = Ok true ->
     p_cmp (denote o) t Lt (RR a c) = Ok v -> v = true) /\
  (forall a b c u v, wf_raw t a -> wf_raw t b -> wf_raw t c ->
     value a <> None -> value b <> None -> value c <> None ->
     p_cmp (denote o) t Lt (RR a b) = Ok false -> p_cmp (denote o) t Lt (RR b a) = Ok false ->
     p_cmp (denote o) t Lt (RR b c) = Ok false -> p_cmp (denote o) t Lt (RR c b) = Ok false ->
     p_cmp (denote o) t Lt (RR a c) = Ok u -> p_cmp (denote o) t Lt (RR c a) = Ok v ->
     u = false /\ v = false) /\
  (forall a b u v e, wf_raw t a -> wf_raw t b -> value a <> None -> value b <> None ->
     p_cmp (denote o) t Lt (RR a b) = Ok u -> p_cmp (denote o) t Lt (RR b a) = Ok v ->
     p_cmp (denote o) t Eq (RR a b) = Ok e ->
     (u = false /\ v = false <-> e = true)).
Proof.
  intros o t W S C. split; [|split; [|split; [|split]]].
  - intros. eapply (lt_irrefl o t W S C); eauto.
  - intros. eapply (lt_asym o t W S C a b); eauto.
  - intros. eapply (lt_trans o t W S C a b c); eauto.
  - intros. eapply (incomparable_trans o t W S C a b c); eauto.
  - intros. now apply (lt_incomparable o t W S C a b u v e).
Qed.

Lemma c15_undefined_refuted : exists a u b,
  p_cmp (denote defaults) int32 Lt (RR a u) = Ok false /\
  p_cmp (denote defaults) int32 Lt (RR u a) = Ok false /\
  p_cmp (denote defaults) int32 Lt (RR u b) = Ok false /\
  p_cmp (denote defaults) int32 Lt (RR b u) = Ok false /\
  p_cmp (denote defaults) int32 Lt (RR a b) = Ok true.
Proof.
  exists (mkRaw 1 1), (mkRaw 0 0), (mkRaw 2 1). repeat split; vm_compute; reflexivity.
Qed.

Lemma c16_greater_is_swapped_less : forall o t a,
  agree (p_cmp (denote o) t Gt a) (p_cmp (denote o) t Lt (swap a)).
Proof. exact denote_gt. Qed.

Lemma c16_greater_equal_is_swapped_less_equal : forall o t a,
  agree (p_cmp (denote o) t Ge a) (p_cmp (denote o) t Le (swap a)).
Proof. exact denote_ge. Qed.

Lemma c16_less_equal_is_less_or_equal : forall o t a,
  p_cmp (denote o) t Le a =
  (do x <- p_cmp (denote o) t Lt a; do y <- p_cmp (denote o) t Eq a; Ok (x || y)).
Proof. exact denote_le. Qed.

Lemma c16_equal_symmetric : forall o t a,
  agree (p_cmp (denote o) t Eq a) (p_cmp (denote o) t Eq (swap a)).
Proof. exact denote_eq_sym. Qed.

Lemma c16_trichotomy : forall o t a l e g,
  wf_rep t -> wf_args t a -> left_value a <> None -> right_value a <> None ->
  p_cmp (denote o) t Lt a = Ok l -> p_cmp (denote o) t Eq a = Ok e ->
  p_cmp (denote o) t Gt a = Ok g -> exactly_one l e g.
Proof. intros; eapply denote_trichotomy; eauto. split; auto. Qed.

Lemma c17_undefined_unordered : forall o t op a b,
  wf_rep t -> wf_args t a -> left_value a = None \/ right_value a = None ->
  p_cmp (denote o) t op a = Ok b ->
  b = match op with Ne => true | _ => false end.
Proof. intros o t op a b W A D H. eapply denote_cmp_undefined; eauto. intros [D1 D2]; tauto. Qed.

Lemma c17_undefined_total : forall o t op a B,
  wf_rep t -> wf_args t a -> args_bounded B a -> B <= rmax t -> B * B <= rmax t ->
  left_value a = None \/ right_value a = None ->
  p_cmp (denote o) t op a = Ok (match op with Ne => true | _ => false end).
Proof.
  intros o t op a B W A H1 H2 H3 D.
  assert (D' : ~ defined_args a) by (intros [D1 D2]; tauto).
  destruct (denote_cmp_undef_total o t op a B) as [b E]; auto.
  rewrite E. f_equal. eapply denote_cmp_undefined; eauto.
Qed.

