(** Lemmas on wrapping arithmetic. *)

From Coq Require Import ZArith QArith Qreduction List Bool Lia.
From Verif Require Import Machine Raw Ops Spec Mixed_spec Unsigned_spec Defined_spec Stack_spec Wrap_spec.
From Verif Require Import Machine_proofs Value_proofs Ops_proofs Algebra_proofs Defined_proofs Stack_proofs Literals_proofs.
Import ListNotations.
Open Scope Z_scope.

Lemma arith_u : forall t v, rsigned t = false -> arith t v = Ok (wrapped t v).
Proof. intros t v S. unfold arith, wrapped, wrap. now rewrite S. Qed.

Lemma in_rep_u : forall t v, unsigned_rep t -> in_rep t v = true <-> 0 <= v <= rmax t.
Proof. intros t v [W S]. rewrite in_rep_iff, rmin_unsigned by auto. reflexivity. Qed.

Lemma wrapped_small : forall t v, unsigned_rep t -> 0 <= v <= rmax t -> wrapped t v = v.
Proof.
  intros t v [W S] H. unfold rmax in H. rewrite S in H. unfold wrapped. apply Z.mod_small. lia.
Qed.

Lemma wrapped_range : forall t v, unsigned_rep t -> 0 <= wrapped t v <= rmax t.
Proof.
  intros t v [W S]. unfold rmax. rewrite S. unfold wrapped, wf_rep in *.
  pose proof (Z.mod_pos_bound v (2 ^ rbits t) ltac:(apply Z.pow_pos_nonneg; lia)). lia.
Qed.

Lemma reduce_low : forall t l m a, unsigned_rep t -> wf_raw t l -> value l = Some a ->
  reduce t l m = Ok (mkRaw (low_num a) (low_den a)).
Proof.
  intros t l m a U WL V. pose proof U as [W S].
  destruct (WL) as [N D]. apply in_rep_u in N, D; auto.
  assert (D0 : den l <> 0) by (intros Z0; unfold value in V; rewrite Z0 in V; discriminate).
  assert (exists r, reduce t l ignore_signs_mode = Ok r) as [r R].
  { cbn. unfold reduce_ignore_signs, is_undefined, is_defined. replace (den l =? 0) with false by lia. cbn [negb].
    unfold std_gcd. rewrite !(proj2 (in_rep_u t _ U)) by lia. cbn [andb bind].
    assert (G : Z.gcd (num l) (den l) <> 0) by (intros G; apply Z.gcd_eq_0_r in G; lia).
    unfold m_div. replace (Z.gcd (num l) (den l) =? 0) with false by lia.
    rewrite !arith_u by auto. eexists. reflexivity. }
  assert (P : 0 < den r /\ Z.gcd (num r) (den r) = 1 /\ value r = value r).
  { destruct (reduce_spec t l _ r W WL R) as [[_ DR] [RT _]]. apply in_rep_u in DR; auto.
    destruct RT as [[C _]|[_ [g [G [_ [DD [GG _]]]]]]]; [lia|]. assert (den r <> 0) by nia. repeat split; auto; lia. }
  destruct P as [P1 [P2 _]].
  assert (RR : r = mkRaw (low_num a) (low_den a)).
  { apply canonical_unique; [right; auto|right; split; [apply low_den_pos|apply low_canonical]|].
    destruct (reduce_spec t l _ r W WL R) as [_ [RT _]].
    eapply same_trans; [eapply reduces_same_value; eauto|]. rewrite V.
    rewrite (value_defined (mkRaw (low_num a) (low_den a))) by discriminate. cbn [same_value num den].
    symmetry. apply low_value. }
  subst r. destruct m; [|exact R].
  cbn [reduce]. unfold reduce_normalize_signs. cbn [reduce] in R. rewrite R. cbn [bind].
  unfold normalize_signs. cbn [den]. destruct (low_den a >? 0) eqn:E; [reflexivity|]. cbn in P1. lia.
Qed.

Lemma reduce_total : forall t v m, unsigned_rep t -> wf_raw t v -> exists r, reduce t v m = Ok r.
Proof.
  intros t v m U WV. destruct (value v) as [a|] eqn:V.
  - eexists. now apply (reduce_low t v m a).
  - assert (Z0 : den v = 0) by (unfold value in V; destruct (den v =? 0) eqn:E; [lia|discriminate]).
    assert (I : reduce_ignore_signs t v = Ok (mkRaw 0 0)).
    { unfold reduce_ignore_signs, is_undefined, is_defined. now rewrite Z0. }
    destruct m; cbn [reduce]; [|eauto]. unfold reduce_normalize_signs. rewrite I. cbn [bind].
    unfold normalize_signs. cbn [den num]. change (0 >? 0) with false. cbv iota. destruct U as [_ S].
    unfold m_neg. rewrite !arith_u by auto. cbn [bind]. eauto.
Qed.

Lemma effect_input : forall o, reduces_inputs o = true -> effect (input_modes o) <> Absent.
Proof.
  intros o H. assert (N : input_modes o <> []).
  { induction o; cbn in *; try discriminate; auto. }
  unfold effect. destruct (existsb _ _); [discriminate|]. destruct (input_modes o); [congruence|discriminate].
Qed.

(** The operands in lowest terms. *)
Definition low_args (a : args) (x y : Q) : args :=
  match a with
  | RR _ _ => RR (mkRaw (low_num x) (low_den x)) (mkRaw (low_num y) (low_den y))
  | RI _ z => RI (mkRaw (low_num x) (low_den x)) z
  | IR z _ => IR z (mkRaw (low_num y) (low_den y))
  end.

Lemma layer_low : forall t ar l x y, unsigned_rep t -> wf_args t ar -> l <> Absent ->
  left_value ar = Some x -> right_value ar = Some y -> layer_args t ar l = Ok (low_args ar x y).
Proof.
  intros t ar l x y U W N X Y.
  assert (R : forall m, reduce_args t ar m = Ok (low_args ar x y)).
  { intros m. destruct ar as [u v|u z|z u]; cbn in *.
    - destruct W as [W1 W2]. rewrite (reduce_low t u m x), (reduce_low t v m y) by auto. reflexivity.
    - destruct W as [W1 W2]. rewrite (reduce_low t u m x) by auto. reflexivity.
    - destruct W as [W1 W2]. rewrite (reduce_low t u m y) by auto. reflexivity. }
  destruct l; [congruence| |]; apply R.
Qed.

(** ** The bottom policies *)

Lemma wrapped_plus : forall t x y, wf_rep t -> wrapped t (wrapped t x + wrapped t y) = wrapped t (x + y).
Proof. intros t x y W. unfold wrapped. symmetry. apply Z.add_mod. unfold wf_rep in W. apply Z.pow_nonzero; lia. Qed.
Lemma wrapped_minus : forall t x y, wf_rep t -> wrapped t (wrapped t x - wrapped t y) = wrapped t (x - y).
Proof. intros t x y W. unfold wrapped. symmetry. apply Zminus_mod. Qed.
Lemma wrapped_plus_r : forall t x y, wf_rep t -> wrapped t (x + wrapped t y) = wrapped t (x + y).
Proof. intros t x y W. unfold wrapped. apply Zplus_mod_idemp_r. Qed.
Lemma wrapped_minus_r : forall t x y, wf_rep t -> wrapped t (x - wrapped t y) = wrapped t (x - y).
Proof. intros t x y W. unfold wrapped. apply Zminus_mod_idemp_r. Qed.
Lemma wrapped_minus_l : forall t x y, wf_rep t -> wrapped t (wrapped t x - y) = wrapped t (x - y).
Proof. intros t x y W. unfold wrapped. apply Zminus_mod_idemp_l. Qed.

Lemma rem_u : forall t x y, unsigned_rep t -> 0 <= x <= rmax t -> 0 < y -> m_rem t x y = Ok (x mod y).
Proof.
  intros t x y [W S] X Y. unfold m_rem. replace (y =? 0) with false by lia. rewrite arith_u by auto. cbn [bind].
  now rewrite Z.rem_mod_nonneg by lia.
Qed.

Lemma lcm_u : forall t x y, unsigned_rep t -> 0 < x <= rmax t -> 0 < y <= rmax t ->
  std_lcm t x y = if Z.lcm x y <=? rmax t then Ok (Z.lcm x y) else UB LibPrecond.
Proof.
  intros t x y U X Y. unfold std_lcm. rewrite !(proj2 (in_rep_u t _ U)) by lia. cbn [andb].
  pose proof (Z.lcm_nonneg x y). destruct (Z.lcm x y <=? rmax t) eqn:E.
  - now rewrite (proj2 (in_rep_u t _ U)) by lia.
  - destruct (in_rep t (Z.lcm x y)) eqn:F; auto. apply in_rep_u in F; auto. lia.
Qed.

(** Bringing two fractions in lowest terms to their least common denominator. *)
Lemma lcm_run : forall A t a b (k : Z -> Z -> Z -> res A), unsigned_rep t -> low_den a <= rmax t -> low_den b <= rmax t ->
  (do lcm <- std_lcm t (low_den a) (low_den b);
   do u <- m_div t lcm (low_den a); do u <- m_mul t u (low_num a);
   do v <- m_div t lcm (low_den b); do v <- m_mul t v (low_num b); k lcm u v) =
  let D := least_den a b in
  if D <=? rmax t then k D (wrapped t (over a D)) (wrapped t (over b D)) else UB LibPrecond.
Proof.
  intros A t a b k U DA DB. pose proof U as [W S]. pose proof (low_den_pos a) as PA. pose proof (low_den_pos b) as PB.
  rewrite lcm_u by (auto; lia). cbv zeta. fold (least_den a b). destruct (least_den a b <=? rmax t) eqn:E; [|reflexivity].
  cbn [bind]. unfold m_div, m_mul. rewrite (proj2 (Z.eqb_neq (low_den a) 0)), (proj2 (Z.eqb_neq (low_den b) 0)) by lia.
  rewrite !arith_u by auto. cbn [bind].
  assert (Q : forall d, 0 < d -> 0 <= least_den a b / d <= rmax t).
  { intros d P. unfold least_den in *. pose proof (Z.lcm_nonneg (low_den a) (low_den b)).
    split; [apply Z.div_pos; lia|]. apply Z.le_trans with (Z.lcm (low_den a) (low_den b)); [apply Z.div_le_upper_bound; nia|lia]. }
  assert (N : 0 <= least_den a b) by apply Z.lcm_nonneg.
  rewrite !Z.quot_div_nonneg by lia. rewrite !(wrapped_small t (least_den a b / _)) by auto.
  rewrite arith_u by auto. cbn [bind]. rewrite arith_u by auto. cbn [bind].
  unfold over. now rewrite (Z.mul_comm (low_num a)), (Z.mul_comm (low_num b)).
Qed.

Lemma over_product : forall a b, over a (low_den a * low_den b) = low_num a * low_den b /\
  over b (low_den a * low_den b) = low_num b * low_den a.
Proof.
  intros a b. pose proof (low_den_pos a). pose proof (low_den_pos b). unfold over.
  rewrite Z.div_mul by lia. rewrite (Z.mul_comm (low_den a)), Z.div_mul by lia. auto.
Qed.

(** Integers are fractions over one. *)
Lemma shared_int_r : forall s a z, shared_den s a (inject_Z z) = low_den a /\
  over a (shared_den s a (inject_Z z)) = low_num a /\ over (inject_Z z) (shared_den s a (inject_Z z)) = z * low_den a.
Proof.
  intros s a z. destruct (low_int z) as [N D]. pose proof (low_den_pos a).
  assert (E : shared_den s a (inject_Z z) = low_den a).
  { unfold shared_den, least_den. rewrite D. destruct s; [rewrite Z.lcm_1_r|]; lia. }
  rewrite E. unfold over. rewrite N, D, Z.div_same, Z.div_1_r by lia. repeat split; lia.
Qed.
Lemma shared_int_l : forall s a z, shared_den s (inject_Z z) a = low_den a /\
  over a (shared_den s (inject_Z z) a) = low_num a /\ over (inject_Z z) (shared_den s (inject_Z z) a) = z * low_den a.
Proof.
  intros s a z. destruct (low_int z) as [N D]. pose proof (low_den_pos a).
  assert (E : shared_den s (inject_Z z) a = low_den a).
  { unfold shared_den, least_den. rewrite D. destruct s; [rewrite Z.lcm_1_l|]; lia. }
  rewrite E. unfold over. rewrite N, D, Z.div_same, Z.div_1_r by lia. repeat split; lia.
Qed.

Lemma low_args_wf : forall t ar x y, unsigned_rep t -> wf_args t ar -> left_value ar = Some x -> right_value ar = Some y ->
  match ar with
  | RR _ _ => 0 <= low_num x <= rmax t /\ 0 < low_den x <= rmax t /\ 0 <= low_num y <= rmax t /\ 0 < low_den y <= rmax t
  | RI _ z => 0 <= low_num x <= rmax t /\ 0 < low_den x <= rmax t /\ 0 <= z <= rmax t /\ y = inject_Z z
  | IR z _ => 0 <= low_num y <= rmax t /\ 0 < low_den y <= rmax t /\ 0 <= z <= rmax t /\ x = inject_Z z
  end.
Proof.
  intros t ar x y U W X Y. pose proof U as [W0 S].
  assert (G : forall l a, wf_raw t l -> value l = Some a -> 0 <= low_num a <= rmax t /\ 0 < low_den a <= rmax t).
  { intros l a WL V. pose proof (reduce_low t l ignore_signs_mode a U WL V) as R.
    destruct (reduce_spec t l _ _ W0 WL R) as [[N D] _]. cbn [num den] in *. apply in_rep_u in N, D; auto.
    pose proof (low_den_pos a). lia. }
  destruct ar as [l r|l z|z r]; cbn in W, X, Y; destruct W as [W1 W2].
  - pose proof (G l x W1 X). pose proof (G r y W2 Y). tauto.
  - pose proof (G l x W1 X). apply in_rep_u in W2; auto. injection Y as <-. tauto.
  - pose proof (G r y W2 Y). apply in_rep_u in W1; auto. injection X as <-. tauto.
Qed.

Ltac u_simpl S := unfold m_add, m_sub, m_mul in *; repeat (rewrite (arith_u _ _ S); cbn [bind]).

Lemma bottom_is : forall o, bottom o = if built_on_safe o then Safe else Fast.
Proof. induction o; cbn; auto. Qed.

Definition ran {A} (r : res A) : Prop := exists x, r = Ok x.

Lemma bottom_run : forall o t op ar x y, unsigned_rep t -> wf_args t ar -> left_value ar = Some x -> right_value ar = Some y ->
  (wrapped_defined t (built_on_safe o) op x y ->
   p_arith (denote (bottom o)) t op (low_args ar x y) = Ok (wrapped_result t (built_on_safe o) op x y)) /\
  (ran (p_arith (denote (bottom o)) t op (low_args ar x y)) -> wrapped_defined t (built_on_safe o) op x y).
Proof.
  intros o t op ar x y U WA X Y. pose proof U as [W S]. pose proof (low_args_wf t ar x y U WA X Y) as G.
  rewrite (bottom_is o).   destruct ar as [l r|l z|z r]; cbn [low_args].
  - destruct G as (N1 & D1 & N2 & D2). destruct (built_on_safe o); cbn [denote].
    + pose proof (lcm_run raw t x y) as R. specialize (R) with (1 := U) (2 := proj2 D1) (3 := proj2 D2). cbv zeta in R.
      destruct op; cbn [p_arith safe p_plus_rr p_minus_rr p_multiplies_rr p_divides_rr p_modulus_rr]; unfold wrapped_defined, wrapped_result, shared_den.
      * unfold safe_plus_rr. cbn [num den]. rewrite (R (fun lcm a b => do n <- m_add t a b; Ok (mkRaw n lcm))).
        destruct (least_den x y <=? rmax t) eqn:E.
        -- u_simpl S. rewrite wrapped_plus, (wrapped_small t (least_den x y)) by (auto; pose proof (Z.lcm_nonneg (low_den x) (low_den y)); unfold least_den in *; lia).
           split; [reflexivity|lia].
        -- split; [lia|]. intros [q Q]; discriminate.
      * unfold safe_minus_rr. cbn [num den]. rewrite (R (fun lcm a b => do n <- m_sub t a b; Ok (mkRaw n lcm))).
        destruct (least_den x y <=? rmax t) eqn:E.
        -- u_simpl S. rewrite wrapped_minus, (wrapped_small t (least_den x y)) by (auto; pose proof (Z.lcm_nonneg (low_den x) (low_den y)); unfold least_den in *; lia).
           split; [reflexivity|lia].
        -- split; [lia|]. intros [q Q]; discriminate.
      * unfold safe_multiplies_rr. cbn [num den]. u_simpl S. split; auto.
      * unfold safe_divides_rr. cbn [num den]. u_simpl S. split; auto.
      * unfold safe_modulus_rr. cbn [num den]. rewrite (R (fun lcm a b => do n <- m_rem t a b; Ok (mkRaw n lcm))).
        destruct (least_den x y <=? rmax t) eqn:E.
        -- rewrite (wrapped_small t (least_den x y)) by (auto; pose proof (Z.lcm_nonneg (low_den x) (low_den y)); unfold least_den in *; lia).
           pose proof (wrapped_range t (over x (least_den x y)) U). pose proof (wrapped_range t (over y (least_den x y)) U).
           split.
           ++ intros [_ NZ]. rewrite rem_u by (auto; lia). reflexivity.
           ++ intros [q Q]. split; [lia|]. intros Z0. rewrite Z0 in Q. unfold m_rem in Q. discriminate.
        -- split; [lia|]. intros [q Q]; discriminate.
    + destruct (over_product x y) as [O1 O2].
      destruct op; cbn [p_arith fast p_plus_rr p_minus_rr p_multiplies_rr p_divides_rr p_modulus_rr]; unfold wrapped_defined, wrapped_result, shared_den; rewrite ?O1, ?O2.
      * unfold fast_plus_rr. cbn [num den]. u_simpl S. rewrite wrapped_plus by auto. split; [auto|discriminate].
      * unfold fast_minus_rr. cbn [num den]. u_simpl S. rewrite wrapped_minus by auto. split; [auto|discriminate].
      * unfold fast_multiplies_rr. cbn [num den]. u_simpl S. split; auto.
      * unfold fast_divides_rr. cbn [num den]. u_simpl S. split; auto.
      * unfold fast_modulus_rr. cbn [num den]. u_simpl S.
        pose proof (wrapped_range t (low_num x * low_den y) U). pose proof (wrapped_range t (low_num y * low_den x) U). split.
        -- intros [_ NZ]. rewrite rem_u by (auto; lia). cbn [bind]. u_simpl S. reflexivity.
        -- intros [q Q]. split; [discriminate|]. intros Z0. rewrite Z0 in Q. unfold m_rem in Q. discriminate.
  - destruct G as (N1 & D1 & N2 & ->). destruct (low_int z) as [LN LD].
    set (s := built_on_safe o).
    destruct (shared_int_r s x z) as (E1 & E2 & E3).
    assert (P : p_arith (denote (if s then Safe else Fast)) t op (RI (mkRaw (low_num x) (low_den x)) z) =
                p_arith safe t op (RI (mkRaw (low_num x) (low_den x)) z)).
    { destruct s; [reflexivity|]. destruct op; try reflexivity.
      cbn. unfold fast_modulus_ri, safe_modulus_ri, m_mul. cbn [num den]. now rewrite (Z.mul_comm z). }
    rewrite P. clear P. unfold wrapped_defined, wrapped_result. rewrite E2, E3, E1, LN, LD.
    rewrite !Z.mul_1_r. rewrite (wrapped_small t (low_den x)), (wrapped_small t (low_num x)) by (auto; lia).
    destruct op; cbn [p_arith safe p_plus_ri p_minus_ri p_multiplies_ri p_divides_ri p_modulus_ri].
    * unfold safe_plus_ri. cbn [num den]. u_simpl S. rewrite wrapped_plus_r by auto. split; [auto|lia].
    * unfold safe_minus_ri. cbn [num den]. u_simpl S. rewrite wrapped_minus_r by auto. split; [auto|lia].
    * unfold safe_multiplies_ri. cbn [num den]. u_simpl S. split; auto.
    * unfold safe_divides_ri. cbn [num den]. u_simpl S. split; auto.
    * unfold safe_modulus_ri. cbn [num den]. u_simpl S. rewrite (Z.mul_comm (low_den x) z).
      pose proof (wrapped_range t (z * low_den x) U). split.
      -- intros [_ NZ]. rewrite rem_u by (auto; lia). reflexivity.
      -- intros [q Q]. split; [lia|]. intros Z0. rewrite Z0 in Q. unfold m_rem in Q. discriminate.
  - destruct G as (N1 & D1 & N2 & ->). destruct (low_int z) as [LN LD].
    set (s := built_on_safe o).
    destruct (shared_int_l s y z) as (E1 & E2 & E3).
    assert (P : p_arith (denote (if s then Safe else Fast)) t op (IR z (mkRaw (low_num y) (low_den y))) =
                p_arith safe t op (IR z (mkRaw (low_num y) (low_den y)))).
    { destruct s; [reflexivity|]. destruct op; try reflexivity.
      cbn. unfold fast_modulus_ir, safe_modulus_ir, m_mul. cbn [num den]. now rewrite (Z.mul_comm z). }
    rewrite P. clear P. unfold wrapped_defined, wrapped_result. rewrite E2, E3, E1, LN, LD.
    rewrite !Z.mul_1_l. rewrite (wrapped_small t (low_den y)), (wrapped_small t (low_num y)) by (auto; lia).
    destruct op; cbn [p_arith safe p_plus_ir p_minus_ir p_multiplies_ir p_divides_ir p_modulus_ir].
    * unfold safe_plus_ir, safe_plus_ri. cbn [num den]. u_simpl S. rewrite wrapped_plus_r by auto. rewrite Z.add_comm. split; [auto|lia].
    * unfold safe_minus_ir. cbn [num den]. u_simpl S. rewrite wrapped_minus_l by auto. split; [auto|lia].
    * unfold safe_multiplies_ir, safe_multiplies_ri. cbn [num den]. u_simpl S. rewrite Z.mul_comm. split; auto.
    * unfold safe_divides_ir. cbn [num den]. u_simpl S. split; auto.
    * unfold safe_modulus_ir. cbn [num den]. u_simpl S. rewrite (Z.mul_comm (low_den y) z).
      pose proof (wrapped_range t (z * low_den y) U). split.
      -- intros [_ NZ]. rewrite rem_u by (auto; lia). reflexivity.
      -- intros [q Q]. split; [lia|]. intros Z0. rewrite Z0 in Q. unfold m_rem in Q. discriminate.
Qed.

Lemma layer_raw_u : forall t v l, unsigned_rep t -> wf_raw t v ->
  exists r, layer_raw t v l = Ok r /\ same_value (value r) (value v).
Proof.
  intros t v l U WV. pose proof U as [W S].
  assert (G : forall m, exists r, reduce t v m = Ok r /\ same_value (value r) (value v)).
  { intros m. destruct (reduce_total t v m U WV) as [r R]. exists r. split; auto.
    eapply reduces_same_value. exact (proj1 (proj2 (reduce_spec t v m r W WV R))). }
  destruct l; [|apply G|apply G]. exists v. split; [reflexivity|]. destruct (value v); cbn; auto. reflexivity.
Qed.

Lemma wrapped_result_wf : forall t s op a b, unsigned_rep t -> wrapped_defined t s op a b -> wf_raw t (wrapped_result t s op a b).
Proof.
  intros t s op a b U D. unfold wf_raw.
  assert (G : forall z, in_rep t (wrapped t z) = true) by (intros z; apply in_rep_u; auto; now apply wrapped_range).
  destruct op; cbn [wrapped_result num den]; split; auto.
  destruct D as [_ D]. cbn [wrapped_result num] in *. apply in_rep_u; auto.
  pose proof (wrapped_range t (over b (shared_den s a b)) U). 
  pose proof (Z.mod_pos_bound (wrapped t (over a (shared_den s a b))) (wrapped t (over b (shared_den s a b))) ltac:(lia)). lia.
Qed.

Theorem wrap_arith : forall o t op ar a b, unsigned_rep t -> wf_args t ar -> reduces_inputs o = true ->
  left_value ar = Some a -> right_value ar = Some b ->
  ((exists r, p_arith (denote o) t op ar = Ok r) <-> wrapped_defined t (built_on_safe o) op a b) /\
  (forall r, p_arith (denote o) t op ar = Ok r ->
     same_value (value r) (value (wrapped_result t (built_on_safe o) op a b))).
Proof.
  intros o t op ar a b U WA RI A B. pose proof U as [W S].
  rewrite arith_shape by auto. rewrite (layer_low t ar _ a b U WA (effect_input o RI) A B). cbn [bind].
  destruct (bottom_run o t op ar a b U WA A B) as [R1 R2].
  split; [split|].
  - intros [r R]. apply R2. destruct (p_arith (denote (bottom o)) t op (low_args ar a b)) as [x|u]; [now exists x|discriminate].
  - intros D. rewrite (R1 D). cbn [bind].
    destruct (layer_raw_u t (wrapped_result t (built_on_safe o) op a b) (effect (output_modes o)) U) as [r [R _]]; eauto.
    now apply wrapped_result_wf.
  - intros r R.
    assert (D : wrapped_defined t (built_on_safe o) op a b).
    { apply R2. destruct (p_arith (denote (bottom o)) t op (low_args ar a b)) as [x|u]; [now exists x|discriminate]. }
    rewrite (R1 D) in R. cbn [bind] in R.
    destruct (layer_raw_u t (wrapped_result t (built_on_safe o) op a b) (effect (output_modes o)) U) as [r' [R' E]];
      [now apply wrapped_result_wf|]. rewrite R' in R. injection R as <-. exact E.
Qed.

(** ** Comparisons *)

Lemma low_is_defined : forall n q, is_defined (mkRaw n (low_den q)) = true.
Proof. intros n q. unfold is_defined. cbn [den]. pose proof (low_den_pos q). rewrite (proj2 (Z.eqb_neq _ _)); [reflexivity|lia]. Qed.

Theorem wrap_cmp : forall o t op ar a b, unsigned_rep t -> wf_args t ar -> reduces_inputs o = true ->
  left_value ar = Some a -> right_value ar = Some b ->
  let D := shared_den (built_on_safe o) a b in
  ((exists v, p_cmp (denote o) t op ar = Ok v) <-> (built_on_safe o = true -> D <= rmax t)) /\
  (forall v, p_cmp (denote o) t op ar = Ok v -> v = int_cmp op (wrapped t (over a D)) (wrapped t (over b D))).
Proof.
  intros o t op ar a b U WA RI A B. pose proof U as [W S]. cbv zeta.
  rewrite cmp_shape by auto. rewrite (layer_low t ar _ a b U WA (effect_input o RI) A B). cbn [bind].
  assert (G : (~ (built_on_safe o = true -> shared_den (built_on_safe o) a b <= rmax t) ->
               exists u, p_cmp (denote (bottom o)) t op (low_args ar a b) = UB u) /\
              ((built_on_safe o = true -> shared_den (built_on_safe o) a b <= rmax t) ->
               p_cmp (denote (bottom o)) t op (low_args ar a b) =
               Ok (int_cmp op (wrapped t (over a (shared_den (built_on_safe o) a b))) (wrapped t (over b (shared_den (built_on_safe o) a b)))))).
  { rewrite (bottom_is o). pose proof (low_args_wf t ar a b U WA A B) as G.
    destruct ar as [l r|l z|z r]; cbn [low_args].
    - destruct G as (N1 & D1 & N2 & D2). destruct (built_on_safe o); cbn [denote].
      + pose proof (fun k => lcm_run bool t a b k U (proj2 D1) (proj2 D2)) as R1.
        pose proof (fun k => lcm_run bool t b a k U (proj2 D2) (proj2 D1)) as R2. cbv zeta in R1, R2.
        assert (C : least_den b a = least_den a b) by apply Z.lcm_comm. rewrite C in R2.
        unfold shared_den.
        destruct op; cbn [p_cmp safe p_equal_to_rr p_not_equal_to_rr p_less_rr p_less_equal_rr p_greater_rr p_greater_equal_rr];
          unfold safe_not_equal_to_rr, safe_greater_rr, safe_greater_equal_rr, safe_equal_to_rr, safe_less_rr, safe_less_equal_rr, is_undefined;
          rewrite ?low_is_defined; cbn [negb orb num den].
        * rewrite (R1 (fun _ x y => Ok (x =? y))). destruct (least_den a b <=? rmax t) eqn:E; split; intros H; eauto; try reflexivity; exfalso; lia.
        * rewrite (R1 (fun _ x y => Ok (x =? y))). destruct (least_den a b <=? rmax t) eqn:E; cbn [bind]; split; intros H; eauto; try reflexivity; exfalso; lia.
        * rewrite (R1 (fun _ x y => Ok (x <? y))). destruct (least_den a b <=? rmax t) eqn:E; split; intros H; eauto; try reflexivity; exfalso; lia.
        * rewrite (R1 (fun _ x y => Ok (x <=? y))). destruct (least_den a b <=? rmax t) eqn:E; split; intros H; eauto; try reflexivity; exfalso; lia.
        * rewrite (R2 (fun _ x y => Ok (x <? y))). destruct (least_den a b <=? rmax t) eqn:E; split; intros H; eauto; try reflexivity; exfalso; lia.
        * rewrite (R2 (fun _ x y => Ok (x <=? y))). destruct (least_den a b <=? rmax t) eqn:E; split; intros H; eauto; try reflexivity; exfalso; lia.
      + destruct (over_product a b) as [O1 O2]. unfold shared_den. rewrite O1, O2.
        split; [intros H; exfalso; apply H; discriminate|]. intros _.
        destruct op; cbn [p_cmp fast p_equal_to_rr p_not_equal_to_rr p_less_rr p_less_equal_rr p_greater_rr p_greater_equal_rr];
          unfold fast_not_equal_to_rr, fast_greater_rr, fast_greater_equal_rr, fast_equal_to_rr, fast_less_rr, fast_less_equal_rr;
          rewrite ?low_is_defined; cbn [num den]; u_simpl S; rewrite ?andb_true_r; reflexivity.
    - destruct G as (N1 & D1 & N2 & ->). destruct (shared_int_r (built_on_safe o) a z) as (E1 & E2 & E3).
      rewrite E2, E3, E1. split; [intros H; exfalso; apply H; intros _; lia|]. intros _.
      rewrite (wrapped_small t (low_num a)) by (auto; lia).
      destruct (built_on_safe o), op; cbn [denote p_cmp safe fast p_equal_to_ri p_not_equal_to_ri p_less_ri p_less_equal_ri p_greater_ri p_greater_equal_ri];
        unfold fast_not_equal_to_ri, fast_greater_ri, fast_greater_equal_ri, fast_equal_to_ri, fast_less_ri, fast_less_equal_ri, fast_less_ir, fast_less_equal_ir,
          safe_not_equal_to_ri, safe_greater_ri, safe_greater_equal_ri, safe_equal_to_ri, safe_less_ri, safe_less_equal_ri, safe_less_ir, safe_less_equal_ir;
        rewrite ?low_is_defined; cbn [num den]; u_simpl S; rewrite ?andb_true_r; reflexivity.
    - destruct G as (N1 & D1 & N2 & ->). destruct (shared_int_l (built_on_safe o) b z) as (E1 & E2 & E3).
      rewrite E2, E3, E1. split; [intros H; exfalso; apply H; intros _; lia|]. intros _.
      rewrite (wrapped_small t (low_num b)) by (auto; lia).
      destruct (built_on_safe o), op; cbn [denote p_cmp safe fast p_equal_to_ir p_not_equal_to_ir p_less_ir p_less_equal_ir p_greater_ir p_greater_equal_ir];
        unfold fast_not_equal_to_ir, fast_greater_ir, fast_greater_equal_ir, fast_equal_to_ir, fast_equal_to_ri, fast_less_ri, fast_less_equal_ri, fast_less_ir, fast_less_equal_ir,
          safe_not_equal_to_ir, safe_not_equal_to_ri, safe_greater_ir, safe_greater_equal_ir, safe_equal_to_ir, safe_equal_to_ri, safe_less_ri, safe_less_equal_ri, safe_less_ir, safe_less_equal_ir;
        rewrite ?low_is_defined; cbn [num den]; u_simpl S; rewrite ?andb_true_r; cbn [int_cmp]; rewrite ?(Z.eqb_sym (low_num b)); reflexivity. }
  destruct G as [G1 G2]. split; [split|].
  - intros [v V] H. destruct (Z_le_gt_dec (shared_den (built_on_safe o) a b) (rmax t)); auto. exfalso.
    destruct G1 as [u Q]; [|congruence]. intros K. specialize (K H). lia.
  - intros H. rewrite (G2 H). eauto.
  - intros v V. assert (H : built_on_safe o = true -> shared_den (built_on_safe o) a b <= rmax t).
    { intros H. destruct (Z_le_gt_dec (shared_den (built_on_safe o) a b) (rmax t)); auto. exfalso.
      destruct G1 as [u Q]; [|congruence]. intros K. specialize (K H). lia. }
    rewrite (G2 H) in V. congruence.
Qed.

(** ** When the results are exact *)

Lemma over_is : forall q D, 0 < D -> (low_den q | D) -> (q == inject_Z (over q D) / inject_Z D)%Q.
Proof.
  intros q D P [k K]. subst D. pose proof (low_den_pos q). unfold over. rewrite Z.div_mul by lia.
  rewrite <- (low_value q) at 1. rewrite !inject_Z_mult. field. split; intros E; unfold Qeq, inject_Z in E; cbn in E; nia.
Qed.

Lemma over_den : forall x y D, 0 < D -> (inject_Z x / inject_Z D == inject_Z y / inject_Z D)%Q <-> x = y.
Proof.
  intros x y D P. split; [|now intros ->]. intros E. 
  assert (N : ~ (inject_Z D == 0)%Q) by (intros E'; unfold Qeq, inject_Z in E'; cbn in E'; lia).
  assert (F : (inject_Z x == inject_Z y)%Q).
  { rewrite <- (Qmult_div_r (inject_Z x) (inject_Z D) N), E. now apply Qmult_div_r. }
  unfold Qeq, inject_Z in F. cbn in F. lia.
Qed.

Lemma value_pos : forall n d, 0 < d -> exists q, value (mkRaw n d) = Some q /\ (q == inject_Z n / inject_Z d)%Q.
Proof. intros n d P. rewrite (value_defined (mkRaw n d)) by (cbn; lia). cbn [num den]. eexists. split; [reflexivity|reflexivity]. Qed.

Lemma wrapped_iff : forall t z, unsigned_rep t -> wrapped t z = z <-> 0 <= z <= rmax t.
Proof. intros t z U. split; [intros <-; now apply wrapped_range|now apply wrapped_small]. Qed.

Lemma least_pos : forall a b, 0 < least_den a b.
Proof.
  intros a b. pose proof (low_den_pos a). pose proof (low_den_pos b). pose proof (Z.lcm_nonneg (low_den a) (low_den b)).
  unfold least_den in *. destruct (Z.eq_dec (Z.lcm (low_den a) (low_den b)) 0) as [E|]; [|lia]. apply Z.lcm_eq_0 in E. lia.
Qed.

Lemma sum_over : forall a b x y D, 0 < D -> (a == inject_Z x / inject_Z D)%Q -> (b == inject_Z y / inject_Z D)%Q ->
  (a + b == inject_Z (x + y) / inject_Z D)%Q.
Proof.
  intros a b x y D P QA QB. rewrite QA, QB, inject_Z_plus. field. intros E; unfold Qeq, inject_Z in E; cbn in E; lia.
Qed.
Lemma diff_over : forall a b x y D, 0 < D -> (a == inject_Z x / inject_Z D)%Q -> (b == inject_Z y / inject_Z D)%Q ->
  (a - b == inject_Z (x - y) / inject_Z D)%Q.
Proof.
  intros a b x y D P QA QB. unfold Zminus. rewrite QA, QB, inject_Z_plus, inject_Z_opp. field. intros E; unfold Qeq, inject_Z in E; cbn in E; lia.
Qed.

Theorem wrap_sum_exact : forall o t op ar a b, unsigned_rep t -> wf_args t ar -> reduces_inputs o = true -> built_on_safe o = true ->
  left_value ar = Some a -> right_value ar = Some b ->
  forall N, op = Plus /\ N = over a (least_den a b) + over b (least_den a b) \/
            op = Minus /\ N = over a (least_den a b) - over b (least_den a b) ->
  ((exists r, p_arith (denote o) t op ar = Ok r /\ same_value (value r) (exact op a b)) <->
   least_den a b <= rmax t /\ 0 <= N <= rmax t).
Proof.
  intros o t op ar a b U WA RI BS A B N H.
  destruct (wrap_arith o t op ar a b U WA RI A B) as [DF VL]. rewrite BS in DF, VL.
  pose proof (least_pos a b) as P.
  pose proof (over_is a (least_den a b) P (Z.divide_lcm_l _ _)) as QA.
  pose proof (over_is b (least_den a b) P (Z.divide_lcm_r _ _)) as QB.
  assert (WD : wrapped_defined t true op a b <-> least_den a b <= rmax t).
  { destruct H as [[-> _]|[-> _]]; cbn [wrapped_defined shared_den]; intuition. }
  assert (EX : exists q, exact op a b = Some q /\ (q == inject_Z N / inject_Z (least_den a b))%Q).
  { destruct H as [[-> HN]|[-> HN]]; cbn [exact]; eexists; (split; [reflexivity|]); rewrite HN.
    - exact (sum_over a b _ _ _ P QA QB).
    - exact (diff_over a b _ _ _ P QA QB). }
  destruct EX as [q [EQ Q]]. rewrite EQ in *.
  assert (WR : least_den a b <= rmax t -> wrapped_result t true op a b = mkRaw (wrapped t N) (least_den a b)).
  { intros L. destruct H as [[-> ->]|[-> ->]]; cbn [wrapped_result shared_den]; rewrite (wrapped_small t (least_den a b)) by (auto; lia); reflexivity. }
  destruct (value_pos (wrapped t N) (least_den a b) P) as [w [VW QW]].
  split.
  - intros [r [R V]]. assert (L : least_den a b <= rmax t) by (apply WD, DF; eauto). split; auto.
    pose proof (VL r R) as V2. rewrite (WR L), VW in V2. destruct (value r) as [x|]; [|contradiction]. cbn [same_value] in V, V2.
    apply (wrapped_iff t N U). apply (over_den _ _ (least_den a b) P). rewrite <- QW, <- Q, <- V2, <- V. reflexivity.
  - intros [L R]. destruct (proj2 DF (proj2 WD L)) as [r E]. exists r. split; auto.
    pose proof (VL r E) as V2. rewrite (WR L), VW in V2. destruct (value r) as [x|]; [|contradiction]. cbn [same_value] in *.
    rewrite V2, QW, Q. apply (over_den _ _ (least_den a b) P). now apply wrapped_iff.
Qed.

(** Multiplication by an integer, and its commuted form. *)
Theorem wrap_scale_exact : forall o t l z a, unsigned_rep t -> wf_raw t l -> in_rep t z = true -> reduces_inputs o = true ->
  value l = Some a ->
  forall ar, ar = RI l z \/ ar = IR z l ->
  ((exists r, p_arith (denote o) t Multiplies ar = Ok r /\ same_value (value r) (Some (a * inject_Z z)%Q)) <->
   low_num a * z <= rmax t).
Proof.
  intros o t l z a U WL Z0 HI V ar HA.
  assert (ZR : 0 <= z <= rmax t) by now apply in_rep_u in Z0.
  assert (LR : 0 <= low_num a <= rmax t /\ 0 < low_den a <= rmax t).
  { pose proof (low_args_wf t (RI l z) a (inject_Z z) U (conj WL Z0) V eq_refl) as G. cbv beta iota in G. tauto. }
  destruct (low_int z) as [LN LD].
  assert (G : (exists r, p_arith (denote o) t Multiplies ar = Ok r) /\
              forall r, p_arith (denote o) t Multiplies ar = Ok r ->
                same_value (value r) (value (mkRaw (wrapped t (low_num a * z)) (low_den a)))).
  { destruct HA as [-> | ->].
    - destruct (wrap_arith o t Multiplies (RI l z) a (inject_Z z) U (conj WL Z0) HI V eq_refl) as [D W].
      cbn [wrapped_defined wrapped_result] in *. rewrite LN, LD, Z.mul_1_r in W. rewrite (wrapped_small t (low_den a)) in W by (auto; lia). split; [now apply D|exact W].
    - destruct (wrap_arith o t Multiplies (IR z l) (inject_Z z) a U (conj Z0 WL) HI eq_refl V) as [D W].
      cbn [wrapped_defined wrapped_result] in *. rewrite LN, LD, Z.mul_1_l, Z.mul_comm in W. rewrite (wrapped_small t (low_den a)) in W by (auto; lia). split; [now apply D|exact W]. }
  destruct G as [[r0 R0] G]. destruct (value_pos (wrapped t (low_num a * z)) (low_den a) (proj1 (proj2 LR))) as [w [VW QW]]. rewrite VW in G.
  assert (Q : (a * inject_Z z == inject_Z (low_num a * z) / inject_Z (low_den a))%Q).
  { rewrite <- (low_value a) at 1. rewrite inject_Z_mult. field. intros E; unfold Qeq, inject_Z in E; cbn in E; lia. }
  assert (NN : 0 <= low_num a * z) by nia.
  split.
  - intros [r [R W]]. pose proof (G r R) as V2. destruct (value r) as [x|]; [|contradiction]. cbn [same_value] in *.
    apply (wrapped_iff t (low_num a * z) U). apply (over_den _ _ (low_den a)); [lia|]. rewrite <- QW, <- Q, <- V2, <- W. reflexivity.
  - intros F. exists r0. split; auto. pose proof (G r0 R0) as V2. destruct (value r0) as [x|]; [|contradiction]. cbn [same_value] in *.
    rewrite V2, QW, Q. apply over_den; [lia|]. apply wrapped_iff; auto.
Qed.

Lemma int_cmp_exact : forall op a b D, 0 < D -> (low_den a | D) -> (low_den b | D) ->
  int_cmp op (over a D) (over b D) = exact_cmp op a b.
Proof.
  intros op a b D P DA DB. pose proof (over_is a D P DA) as QA. pose proof (over_is b D P DB) as QB.
  assert (O : forall x y, (inject_Z x / inject_Z D ?= inject_Z y / inject_Z D)%Q = (x ?= y)).
  { intros x y. destruct (x ?= y) eqn:C.
    - apply Z.compare_eq_iff in C. subst. now apply Qeq_alt.
    - apply Qlt_alt. apply Z.compare_lt_iff in C. unfold Qdiv. apply Qmult_lt_r; [apply Qinv_lt_0_compat; now rewrite <- (Zlt_Qlt 0)|now rewrite <- Zlt_Qlt].
    - apply Qgt_alt. apply Z.compare_gt_iff in C. unfold Qdiv. apply Qmult_lt_r; [apply Qinv_lt_0_compat; now rewrite <- (Zlt_Qlt 0)|now rewrite <- Zlt_Qlt]. }
  assert (C : (a ?= b)%Q = (over a D ?= over b D)) by (rewrite <- O; apply Qcompare_comp; assumption).
  assert (C' : (b ?= a)%Q = (over b D ?= over a D)) by (rewrite <- O; apply Qcompare_comp; assumption).
  assert (E1 : Qeq_bool a b = (over a D =? over b D)).
  { apply eq_true_iff_eq. rewrite Qeq_bool_iff, Qeq_alt, C, Z.compare_eq_iff. lia. }
  assert (E2 : forall u v m n, (u ?= v)%Q = (m ?= n) -> Qle_bool u v = (m <=? n)).
  { intros u v m n K. apply eq_true_iff_eq. rewrite Qle_bool_iff, Qle_alt, K. rewrite Z.leb_le. reflexivity. }
  destruct op; cbn [int_cmp exact_cmp]; rewrite ?E1, ?(E2 _ _ _ _ C), ?(E2 _ _ _ _ C'); try reflexivity; lia.
Qed.

Lemma shared_divides : forall s a b, 0 < shared_den s a b /\ (low_den a | shared_den s a b) /\ (low_den b | shared_den s a b).
Proof.
  intros s a b. pose proof (low_den_pos a). pose proof (low_den_pos b). destruct s; cbn [shared_den].
  - split; [apply least_pos|]. split; [apply Z.divide_lcm_l|apply Z.divide_lcm_r].
  - split; [nia|]. split; [apply Z.divide_factor_l|apply Z.divide_factor_r].
Qed.

Theorem wrap_cmp_exact : forall o t op ar a b, unsigned_rep t -> wf_args t ar -> reduces_inputs o = true ->
  left_value ar = Some a -> right_value ar = Some b ->
  let D := shared_den (built_on_safe o) a b in
  (built_on_safe o = true -> D <= rmax t) -> over a D <= rmax t -> over b D <= rmax t ->
  p_cmp (denote o) t op ar = Ok (exact_cmp op a b).
Proof.
  intros o t op ar a b U WA RI A B D L OA OB.
  destruct (wrap_cmp o t op ar a b U WA RI A B) as [DF VL]. fold D in DF, VL.
  destruct (proj2 DF L) as [v V]. rewrite V. f_equal. rewrite (VL v V).
  destruct (shared_divides (built_on_safe o) a b) as (P & DA & DB). fold D in P, DA, DB.
  rewrite !wrapped_small; auto; [now apply int_cmp_exact| |];
    (split; [|assumption]); unfold over; apply Z.mul_nonneg_nonneg.
  all: try (apply Z.div_pos; [lia|apply low_den_pos]).
  all: pose proof (low_args_wf t ar a b U WA A B) as G; destruct ar; decompose [and] G; subst; try (rewrite (proj1 (low_int _))); lia.
Qed.

(** Equality only confuses values whose numerators differ by a multiple of 2^bits. *)
Theorem wrap_equal : forall o t ar a b, unsigned_rep t -> wf_args t ar -> reduces_inputs o = true ->
  left_value ar = Some a -> right_value ar = Some b ->
  let D := shared_den (built_on_safe o) a b in
  (forall v, p_cmp (denote o) t Eq ar = Ok v ->
     (v = true <-> (2 ^ rbits t | over a D - over b D))) /\
  ((a == b)%Q -> exists v, p_cmp (denote o) t Eq ar = Ok v /\ v = true).
Proof.
  intros o t ar a b U WA RI A B D. pose proof U as [W S].
  destruct (wrap_cmp o t Eq ar a b U WA RI A B) as [DF VL]. fold D in DF, VL.
  destruct (shared_divides (built_on_safe o) a b) as (P & DA & DB). fold D in P, DA, DB.
  assert (M : 2 ^ rbits t <> 0) by (unfold wf_rep in W; apply Z.pow_nonzero; lia).
  split.
  - intros v V. rewrite (VL v V). cbn [int_cmp]. rewrite Z.eqb_eq. unfold wrapped. split.
    + intros E. apply Z.mod_divide; auto. rewrite Zminus_mod, E, Z.sub_diag. now apply Z.mod_0_l.
    + intros [k K]. replace (over a D) with (over b D + k * 2 ^ rbits t) by lia. now apply Z.mod_add.
  - intros E. destruct (low_proper a b E) as [E1 E2].
    assert (L : built_on_safe o = true -> D <= rmax t).
    { intros BS. unfold D. rewrite BS. cbn [shared_den]. unfold least_den. rewrite <- E2, Z.lcm_diag.
      pose proof (low_den_pos a). pose proof (low_args_wf t ar a b U WA A B) as G.
      rewrite Z.abs_eq by lia.
      destruct ar; decompose [and] G; subst; try lia. }
    destruct (proj2 DF L) as [v V]. exists v. split; auto. rewrite (VL v V). cbn [int_cmp]. apply Z.eqb_eq.
    unfold over. now rewrite E1, E2.
Qed.
