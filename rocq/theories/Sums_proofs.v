(** Reductions: independence of order and bracketing, and sums over a common
    denominator. *)

From Coq Require Import ZArith QArith List Bool Lia Permutation.
From Verif Require Import Machine Raw Ops Spec Fraction Fraction_spec Mixed_spec Tight_spec Sums Sums_spec.
From Verif Require Import Machine_proofs Value_proofs Ops_proofs Algebra_proofs Total_proofs Cmp_proofs Order_proofs
  Fraction_proofs Tight_proofs.
Import ListNotations.
Open Scope Z_scope.

(** ** Order and bracketing *)

Lemma exact_opt_assoc : forall op x y z, op = Plus \/ op = Multiplies ->
  same_value (exact_opt op (exact_opt op x y) z) (exact_opt op x (exact_opt op y z)).
Proof.
  intros op [x|] [y|] [z|] [-> | ->]; cbn; auto; ring.
Qed.
Lemma exact_opt_comm : forall op x y, op = Plus \/ op = Multiplies ->
  same_value (exact_opt op x y) (exact_opt op y x).
Proof. intros op [x|] [y|] [-> | ->]; cbn; auto; ring. Qed.

(** The total of a non-empty list. *)
Fixpoint total (op : arith_op) (x : raw) (xs : list raw) : option Q :=
  match xs with [] => value x | y :: ys => exact_opt op (value x) (total op y ys) end.

Definition unit_of (op : arith_op) : option Q := match op with Plus => Some 0%Q | _ => Some 1%Q end.
Definition totals (op : arith_op) (xs : list raw) : option Q :=
  fold_right (fun x acc => exact_opt op (value x) acc) (unit_of op) xs.

Lemma totals_app : forall op xs ys, op = Plus \/ op = Multiplies ->
  same_value (totals op (xs ++ ys)) (exact_opt op (totals op xs) (totals op ys)).
Proof.
  intros op xs ys O. induction xs as [|x xs IH]; cbn [totals app fold_right].
  - destruct (totals op ys) as [q|] eqn:E; destruct O as [-> | ->]; unfold totals in E; rewrite E; cbn; auto; ring.
  - fold (totals op (xs ++ ys)). fold (totals op xs). rewrite IH. symmetry. now apply exact_opt_assoc.
Qed.

Lemma totals_perm : forall op xs ys, op = Plus \/ op = Multiplies -> Permutation xs ys ->
  same_value (totals op xs) (totals op ys).
Proof.
  intros op xs ys O P. induction P; cbn [totals fold_right].
  - reflexivity.
  - fold (totals op l). fold (totals op l'). now rewrite IHP.
  - fold (totals op l). rewrite <- !exact_opt_assoc by auto. now rewrite (exact_opt_comm op (value y) (value x) O).
  - now rewrite IHP1.
Qed.

Lemma denotes_totals : forall op e, op = Plus \/ op = Multiplies -> only_op op e ->
  same_value (denotes e) (totals op (leaves e)).
Proof.
  intros op e O. induction e; cbn [only_op leaves denotes]; try tauto.
  - intros _. unfold totals. cbn. destruct (value r); destruct O as [-> | ->]; cbn; auto; ring.
  - intros [-> [A B]]. rewrite totals_app by auto. now rewrite IHe1, IHe2.
Qed.

Lemma tree_exact : forall o t op e r, signed_rep t -> op = Plus \/ op = Multiplies -> only_op op e -> wf_expr t e ->
  eval (denote o) t e = Ok r -> same_value (value r) (denotes e).
Proof.
  intros o t op e r [W S] O. revert r. induction e; cbn [only_op eval wf_expr denotes]; intros v A We E; try tauto.
  - inv_all. reflexivity.
  - destruct A as [-> [A B]]. destruct We as [W1 W2]. inv_all. rewrite f_arith_self in E.
    pose proof (eval_wf _ _ _ _ W W1 E0). pose proof (eval_wf _ _ _ _ W W2 E1).
    apply denote_exact_opt in E; auto; [|split; auto|left; destruct O as [-> | ->]; discriminate].
    rewrite E. cbn [left_value right_value]. now rewrite (IHe1 _ A W1 eq_refl), (IHe2 _ B W2 eq_refl).
Qed.

Lemma leaves_len : forall e, (1 <= length (leaves e))%nat.
Proof. induction e; cbn [leaves]; rewrite ?app_length; cbn; lia. Qed.

Lemma op_or_leaf : forall op e, only_op op e -> is_operation e = true \/ exists r, e = Leaf r.
Proof. intros op e H. destruct e; cbn in *; try tauto; eauto. Qed.

Theorem tree_independent : forall o t op e e' r r', signed_rep t -> output_canonical o = true ->
  op = Plus \/ op = Multiplies -> only_op op e -> only_op op e' -> wf_expr t e -> wf_expr t e' ->
  Permutation (leaves e) (leaves e') ->
  eval (denote o) t e = Ok r -> eval (denote o) t e' = Ok r' -> r = r'.
Proof.
  intros o t op e e' r r' SR C O A A' We We' P E E'. pose proof SR as [W S].
  destruct (op_or_leaf _ _ A) as [I|[x ->]], (op_or_leaf _ _ A') as [I'|[y ->]].
  - apply canonical_unique.
    + eapply eval_canonical; [exact W|exact C|exact We|exact I|exact E].
    + eapply eval_canonical; [exact W|exact C|exact We'|exact I'|exact E'].
    + rewrite (tree_exact o t op e r), (tree_exact o t op e' r'); auto.
      rewrite (denotes_totals op e), (denotes_totals op e'); auto. now apply totals_perm.
  - exfalso. apply Permutation_length in P. destruct e; cbn in *; try tauto; try discriminate.
    rewrite app_length in P. pose proof (leaves_len e1). pose proof (leaves_len e2). lia.
  - exfalso. apply Permutation_length in P. destruct e'; cbn in *; try tauto; try discriminate.
    rewrite app_length in P. pose proof (leaves_len e'1). pose proof (leaves_len e'2). lia.
  - cbn in *. apply Permutation_length_1 in P. congruence.
Qed.

(** std::accumulate is the left-nested tree. *)
Definition left_tree (op : arith_op) (acc : expr) (xs : list raw) : expr :=
  fold_left (fun e x => Bin op e (Leaf x)) xs acc.

Lemma accumulate_tree : forall p t op xs e, 
  eval p t (left_tree op e xs) = (do a <- eval p t e; accumulate p t op a xs).
Proof.
  intros p t op xs. induction xs as [|x xs IH]; intros e; cbn [left_tree fold_left accumulate].
  - now destruct (eval p t e).
  - unfold left_tree in IH. rewrite IH. cbn [eval]. destruct (eval p t e); reflexivity.
Qed.

Lemma left_tree_facts : forall op xs e t, only_op op e -> wf_expr t e -> Forall (wf_raw t) xs ->
  only_op op (left_tree op e xs) /\ wf_expr t (left_tree op e xs) /\ leaves (left_tree op e xs) = leaves e ++ xs.
Proof.
  intros op xs. induction xs as [|x xs IH]; intros e t A We F; cbn [left_tree fold_left].
  - rewrite app_nil_r. auto.
  - inversion F; subst. destruct (IH (Bin op e (Leaf x)) t) as [P [Q R]]; cbn; auto.
    split; [exact P|]. split; [exact Q|]. unfold left_tree in R. rewrite R. cbn [leaves]. now rewrite <- app_assoc.
Qed.

Theorem accumulate_independent : forall o t op a xs a' xs' r r', signed_rep t -> output_canonical o = true ->
  op = Plus \/ op = Multiplies -> Forall (wf_raw t) (a :: xs) -> Forall (wf_raw t) (a' :: xs') ->
  Permutation (a :: xs) (a' :: xs') ->
  accumulate (denote o) t op a xs = Ok r -> accumulate (denote o) t op a' xs' = Ok r' -> r = r'.
Proof.
  intros o t op a xs a' xs' r r' SR C O F F' P E E'. inversion F; inversion F'; subst.
  destruct (left_tree_facts op xs (Leaf a) t) as [A [B L]]; cbn; auto.
  destruct (left_tree_facts op xs' (Leaf a') t) as [A' [B' L']]; cbn; auto.
  eapply (tree_independent o t op (left_tree op (Leaf a) xs) (left_tree op (Leaf a') xs')); eauto.
  - now rewrite L, L'.
  - rewrite accumulate_tree. cbn. exact E.
  - rewrite accumulate_tree. cbn. exact E'.
Qed.

(** ** A common denominator *)

Lemma factor_le : forall c x M, c <> 0 -> Z.abs (c * x) <= M -> Z.abs x <= M.
Proof.
  intros c x M C H. rewrite Z.abs_mul in H. assert (1 <= Z.abs c) by lia.
  assert (1 * Z.abs x <= Z.abs c * Z.abs x) by (apply Z.mul_le_mono_nonneg_r; lia). lia.
Qed.
Lemma factor_nz : forall D c d, 0 < D -> D = c * d -> c <> 0.
Proof. intros D c d P E ->. lia. Qed.

Lemma over_bounds : forall D n x, 0 < D -> over D n x ->
  Z.abs (num x) <= Z.abs n /\ Z.abs (den x) <= D.
Proof.
  intros D n x P [N [c [A ->]]]. pose proof (factor_nz D c _ P A) as C. split.
  - apply (factor_le c); [auto|lia].
  - apply (factor_le c); [auto|]. rewrite <- A. lia.
Qed.

Lemma over_reduces : forall m D n x y, over D n x -> reduces_to m x y -> over D n y.
Proof.
  intros m D n x y [N [c [A B]]] [[Z _]|[_ [g [G [Hn [Hd _]]]]]]; [contradiction|].
  split; [intros X; rewrite X in Hd; lia|]. exists (c * g). rewrite A, B, Hn, Hd. split; ring.
Qed.

(** The computation of safe on operands over D. *)
Lemma over_common : forall t D n m l r, signed_rep t -> 0 < D <= rmax t -> over D n l -> over D m r ->
  Z.abs n <= rmax t -> Z.abs m <= rmax t ->
  exists q k1 k2 L, std_lcm t (den l) (den r) = Ok L /\ m_div t L (den l) = Ok k1 /\ m_mul t k1 (num l) = Ok (k1 * num l) /\
   m_div t L (den r) = Ok k2 /\ m_mul t k2 (num r) = Ok (k2 * num r) /\
   0 < q /\ 0 < L /\ D = q * L /\ n = q * (k1 * num l) /\ m = q * (k2 * num r).
Proof.
  intros t D n m l r SR [DP DM] OL OR NB MB. pose proof (over_bounds D n l DP OL) as [L1 L2].
  pose proof (over_bounds D m r DP OR) as [R1 R2].
  destruct OL as [NL [a [A1 A2]]], OR as [NR [b [B1 B2]]].
  destruct (lcm_cofactor _ _ NL NR) as [k1 [K1 [K2 [K3 _]]]].
  destruct (lcm_cofactor _ _ NR NL) as [k2 [J1 [J2 [J3 _]]]]. rewrite Z.lcm_comm in J1.
  assert (LP : 0 < Z.lcm (den l) (den r)).
  { pose proof (Z.lcm_nonneg (den l) (den r)). assert (Z.lcm (den l) (den r) <> 0) by (intros X; apply Z.lcm_eq_0 in X; tauto). lia. }
  assert (LD : (Z.lcm (den l) (den r) | D)) by (apply Z.lcm_least; [exists a|exists b]; auto).
  destruct LD as [q Q]. set (L := Z.lcm (den l) (den r)) in *. assert (QP : 0 < q) by (clear - Q DP LP; nia).
  exists q, k1, k2, L. pose proof SR as [W S].
  assert (N1 : n = q * (k1 * num l)).
  { assert (a = q * k1) by (apply (Z.mul_reg_r _ _ (den l)); [exact NL|rewrite <- A1, Q, K1; ring]).
    subst a. rewrite A2. ring. }
  assert (M1 : m = q * (k2 * num r)).
  { assert (b = q * k2) by (apply (Z.mul_reg_r _ _ (den r)); [exact NR|rewrite <- B1, Q, J1; ring]).
    subst b. rewrite B2. ring. }
  repeat split; auto.
  - apply exec_lcm; auto; [lia|lia|]. fold L. clear - Q QP LP DM DP. nia.
  - apply exec_quot; auto. lia.
  - apply smul; auto. apply (factor_le q); [lia|]. now rewrite <- N1.
  - apply exec_quot; auto. lia.
  - apply smul; auto. apply (factor_le q); [lia|]. now rewrite <- M1.
Qed.

Definition zop (op : arith_op) (n m : Z) : Z := match op with Minus => n - m | _ => n + m end.

Lemma over_int : forall D n z, over D n (mkRaw z 1) -> n = D * z.
Proof. intros D n z [_ [c [A B]]]. cbn in *. subst. ring. Qed.

Lemma safe_over : forall t D op n m a, signed_rep t -> 0 < D <= rmax t -> op = Plus \/ op = Minus ->
  over D n (lraw a) -> over D m (rraw a) -> Z.abs n <= rmax t -> Z.abs m <= rmax t -> Z.abs (zop op n m) <= rmax t ->
  exists r, p_arith safe t op a = Ok r /\ over D (zop op n m) r.
Proof.
  intros t D op n m a SR [DP DM] O OL OR NB MB ZB. destruct a as [l r|l z|z r]; cbn [lraw rraw] in *.
  - destruct (over_common t D n m l r SR) as [q [k1 [k2 [L [E1 [E2 [E3 [E4 [E5 [QP [LP [Q [N M]]]]]]]]]]]]]; auto.
    destruct O as [-> | ->]; cbn [p_arith safe p_plus_rr p_minus_rr zop] in *; unfold safe_plus_rr, safe_minus_rr;
      rewrite E1; cbn [bind]; rewrite E2; cbn [bind]; rewrite E3; cbn [bind]; rewrite E4; cbn [bind]; rewrite E5; cbn [bind].
    + rewrite sadd; auto; [|apply (factor_le q); [lia|]; now rewrite Z.mul_add_distr_l, <- N, <- M]. cbn [bind]. eexists. split; [reflexivity|].
      split; cbn [num den]; [lia|]. exists q. split; [auto|]. rewrite N, M. ring.
    + rewrite ssub; auto; [|apply (factor_le q); [lia|]; now rewrite Z.mul_sub_distr_l, <- N, <- M]. cbn [bind]. eexists. split; [reflexivity|].
      split; cbn [num den]; [lia|]. exists q. split; [auto|]. rewrite N, M. ring.
  - apply over_int in OR. destruct OL as [NL [c [A B]]]. pose proof (factor_nz D c _ DP A) as C.
    assert (Hm : m = c * (z * den l)) by (rewrite OR, A; ring).
    assert (P : Z.abs (z * den l) <= rmax t) by (apply (factor_le c); [auto|now rewrite <- Hm]).
    destruct O as [-> | ->]; cbn [p_arith safe p_plus_ri p_minus_ri zop] in *; unfold safe_plus_ri, safe_minus_ri;
      rewrite smul by auto; cbn [bind].
    + rewrite sadd; auto; [|apply (factor_le c); [auto|]; now rewrite Z.mul_add_distr_l, <- Hm, <- B]. cbn [bind]. eexists. split; [reflexivity|].
      split; cbn [num den]; [lia|]. exists c. split; [auto|]. rewrite Hm, B. ring.
    + rewrite ssub; auto; [|apply (factor_le c); [auto|]; now rewrite Z.mul_sub_distr_l, <- Hm, <- B]. cbn [bind]. eexists. split; [reflexivity|].
      split; cbn [num den]; [lia|]. exists c. split; [auto|]. rewrite Hm, B. ring.
  - apply over_int in OL. destruct OR as [NR [c [A B]]]. pose proof (factor_nz D c _ DP A) as C.
    assert (Hm : n = c * (z * den r)) by (rewrite OL, A; ring).
    assert (P : Z.abs (z * den r) <= rmax t) by (apply (factor_le c); [auto|now rewrite <- Hm]).
    destruct O as [-> | ->]; cbn [p_arith safe p_plus_ir p_minus_ir zop] in *; unfold safe_plus_ir, safe_plus_ri, safe_minus_ir;
      rewrite smul by auto; cbn [bind].
    + rewrite sadd; auto; [|apply (factor_le c); [auto|]; now rewrite Z.mul_add_distr_l, <- Hm, <- B, Z.add_comm]. cbn [bind]. eexists. split; [reflexivity|].
      split; cbn [num den]; [lia|]. exists c. split; [auto|]. rewrite Hm, B. ring.
    + rewrite ssub; auto; [|apply (factor_le c); [auto|]; now rewrite Z.mul_sub_distr_l, <- Hm, <- B]. cbn [bind]. eexists. split; [reflexivity|].
      split; cbn [num den]; [lia|]. exists c. split; [auto|]. rewrite Hm, B. ring.
Qed.

Lemma over_wf : forall t D n x, signed_rep t -> 0 < D <= rmax t -> Z.abs n <= rmax t -> over D n x -> 
  wf_raw t x /\ Z.abs (num x) <= rmax t /\ Z.abs (den x) <= rmax t.
Proof.
  intros t D n x SR [DP DM] NB H. destruct (over_bounds D n x DP H). repeat split; try apply abs_fits; auto; lia.
Qed.

Lemma over_reduce : forall t m D n x, signed_rep t -> 0 < D <= rmax t -> Z.abs n <= rmax t -> over D n x ->
  exists y, reduce t x m = Ok y /\ over D n y.
Proof.
  intros t m D n x SR DD NB H. destruct (over_wf t D n x SR DD NB H) as [Wx [A B]].
  destruct (reduce_total t x m (proj1 SR) Wx A B) as [y E]. exists y. split; auto.
  apply reduce_spec in E as [_ [R _]]; auto; [|apply SR]. eapply over_reduces; eauto.
Qed.

Lemma over_reduce_args : forall t k D n m a, signed_rep t -> 0 < D <= rmax t -> Z.abs n <= rmax t -> Z.abs m <= rmax t ->
  over D n (lraw a) -> over D m (rraw a) ->
  exists b, reduce_args t a k = Ok b /\ over D n (lraw b) /\ over D m (rraw b).
Proof.
  intros t k D n m a SR DD NB MB A B. destruct a as [l r|l z|z r]; cbn [reduce_args lraw rraw] in *.
  - destruct (over_reduce t k D n l SR DD NB A) as [l' [-> ?]]. destruct (over_reduce t k D m r SR DD MB B) as [r' [-> ?]].
    cbn [bind]. eexists. split; [reflexivity|]. auto.
  - destruct (over_reduce t k D n l SR DD NB A) as [l' [-> ?]]. cbn [bind]. eexists. split; [reflexivity|]. auto.
  - destruct (over_reduce t k D m r SR DD MB B) as [r' [-> ?]]. cbn [bind]. eexists. split; [reflexivity|]. auto.
Qed.

Theorem over_arith : forall o t D op n m a, built_on_safe o = true -> signed_rep t -> 0 < D <= rmax t ->
  op = Plus \/ op = Minus ->
  over D n (lraw a) -> over D m (rraw a) -> Z.abs n <= rmax t -> Z.abs m <= rmax t -> Z.abs (zop op n m) <= rmax t ->
  exists r, p_arith (denote o) t op a = Ok r /\ over D (zop op n m) r.
Proof.
  induction o as [| |o IH k|o IH k]; cbn [built_on_safe denote]; intros t D op n m a C SR DD O OL OR NB MB ZB; try discriminate.
  - now apply safe_over.
  - destruct (over_reduce_args t k D n m a) as [b [E [L R]]]; auto. rewrite ri_arith_eq, E. cbn [bind]. now apply IH.
  - destruct (IH t D op n m a) as [r [E R]]; auto. rewrite ro_arith_eq, E. cbn [bind]. eapply over_reduce; eauto.
Qed.

Theorem over_accumulate : forall o t D ns xs n a, built_on_safe o = true -> signed_rep t -> 0 < D <= rmax t ->
  over D n a -> Forall2 (over D) ns xs -> partial_sums_fit (rmax t) n ns ->
  exists r, accumulate (denote o) t Plus a xs = Ok r /\ over D (n + zsum ns) r.
Proof.
  intros o t D ns. induction ns as [|m ns IH]; intros xs n a C SR DD A F P; inversion F; subst; cbn [accumulate zsum fold_right].
  - exists a. rewrite Z.add_0_r. auto.
  - cbn in P. destruct P as [P1 [P2 P3]]. rewrite f_arith_self.
    destruct (over_arith o t D Plus n m (RR a y)) as [r [E R]]; auto.
    { cbn [zop]. destruct ns; cbn in P3; tauto. }
    rewrite E. cbn [bind]. destruct (IH l' (n + m) r) as [x [E' X]]; auto.
    exists x. split; auto. unfold zsum in X. replace (n + (m + fold_right Z.add 0 ns)) with (n + m + fold_right Z.add 0 ns) by ring. auto.
Qed.

Lemma over_value : forall D n x, 0 < D -> over D n x -> same_value (value x) (Some (inject_Z n / inject_Z D)%Q).
Proof.
  intros D n x P [N [c [A B]]]. pose proof (factor_nz D c _ P A) as C. unfold value. destruct (Z.eqb_spec (den x) 0); [contradiction|].
  cbn. subst. rewrite !inject_Z_mult. 
  assert (~ (inject_Z c == 0)%Q) by (intros X; apply C; unfold Qeq in X; cbn in X; lia).
  assert (~ (inject_Z (den x) == 0)%Q) by (intros X; apply N; unfold Qeq in X; cbn in X; lia).
  field. auto.
Qed.

(** Comparisons. *)
Theorem over_cmp : forall o t D op n m l r, built_on_safe o = true -> signed_rep t -> 0 < D <= rmax t ->
  over D n l -> over D m r -> Z.abs n <= rmax t -> Z.abs m <= rmax t ->
  p_cmp (denote o) t op (RR l r) = Ok (exact_cmp_opt op (value l) (value r)).
Proof.
  intros o t D op n m l r C SR DD OL OR NB MB.
  assert (G : exists b, p_cmp (denote o) t op (RR l r) = Ok b).
  { revert l r OL OR. induction o as [| |o IH k|o IH k]; cbn [built_on_safe denote] in *; intros l r OL OR; try discriminate.
    - destruct (over_common t D n m l r SR) as [q [k1 [k2 [L [E1 [E2 [E3 [E4 [E5 _]]]]]]]]]; auto.
      eexists. apply safe_cmp_exec.
      + destruct OL as [NL _], OR as [NR _]. split; cbn [left_value right_value]; intros X; apply value_none_iff in X; auto.
      + cbn [safe_sides]. rewrite E1; cbn [bind]; rewrite E2; cbn [bind]; rewrite E3; cbn [bind]; rewrite E4; cbn [bind]; rewrite E5; cbn [bind].
        reflexivity.
    - destruct (over_reduce_args t k D n m (RR l r)) as [b [E [L R]]]; auto. rewrite ri_cmp_eq, E. cbn [bind].
      destruct b as [l' r'|l' z|z r']; cbn [reduce_args] in E; inv_all; try discriminate. auto.
    - rewrite ro_cmp_eq. auto. }
  destruct G as [b E]. rewrite E. f_equal.
  destruct (over_wf t D n l SR DD NB OL) as [Wl _]. destruct (over_wf t D m r SR DD MB OR) as [Wr _].
  apply (denote_cmp_defined o t op (RR l r) b (proj1 SR) (proj2 SR)); auto.
  - split; auto.
  - destruct OL as [NL _], OR as [NR _]. split; cbn [left_value right_value]; intros X; apply value_none_iff in X; auto.
  - right. right. right. auto.
Qed.

(** ** Comparing results *)

Lemma canonical_positive : forall r, canonical r -> value r <> None -> 0 < den r.
Proof.
  intros r [[N D]|[P _]] V; auto. exfalso. apply V. apply value_none_iff. auto.
Qed.

Theorem compare_expressions : forall o t op e e' x y b, signed_rep t -> output_canonical o = true ->
  reduces_inputs o = true -> wf_expr t e -> wf_expr t e' -> is_operation e = true -> is_operation e' = true ->
  eval (denote o) t e = Ok x -> eval (denote o) t e' = Ok y ->
  p_cmp (denote o) t op (RR x y) = Ok b -> b = exact_cmp_opt op (denotes e) (denotes e').
Proof.
  intros o t op e e' x y b [W S] C R We We' I I' E E' H.
  pose proof (eval_canonical o t e x W C We I E) as Cx. pose proof (eval_canonical o t e' y W C We' I' E') as Cy.
  pose proof (eval_wf _ _ _ _ W We E). pose proof (eval_wf _ _ _ _ W We' E').
  rewrite <- (eval_exact_opt o t e x W S R We E), <- (eval_exact_opt o t e' y W S R We' E').
  assert (DD : defined_args (RR x y) \/ ~ defined_args (RR x y)).
  { unfold defined_args. cbn. destruct (value x), (value y); [left; split; discriminate|right|right|right]; intuition congruence. }
  destruct DD as [D|D].
  - apply (denote_cmp_defined o t op (RR x y) b) in H; auto; [split; auto|].
    right. right. left. destruct D. split; now apply canonical_positive.
  - rewrite (denote_cmp_undefined o t op (RR x y) b W (conj H0 H1) D H). unfold defined_args in D. cbn in D.
    destruct (value x), (value y); auto. exfalso. apply D. split; discriminate.
Qed.
