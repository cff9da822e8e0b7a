(** Lemmas for C107. *)

From Coq Require Import ZArith QArith Bool Lia Lqa.
From Verif Require Import Machine Raw Ops Spec Fraction Fmath Fmath_spec Stack_spec Outcome_spec Uround_spec.
From Verif Require Import Machine_proofs Value_proofs Ops_proofs Algebra_proofs Fraction_proofs Fmath_proofs Stack_proofs Outcome_proofs.
Open Scope Z_scope.

Section Unsigned.
  Variables (o : ops) (t : rep).
  Hypothesis W : wf_rep t.
  Hypothesis U : rsigned t = false.

  Lemma u_range : forall z, in_rep t z = true <-> 0 <= z < 2 ^ rbits t.
  Proof using U. intros z. rewrite Outcome_proofs.in_rep_iff. unfold rmin, rmax. rewrite U. lia. Qed.
  Lemma u_pow : 4 <= 2 ^ rbits t.
  Proof using W. unfold wf_rep in W. change 4 with (2 ^ 2). apply Z.pow_le_mono_r; lia. Qed.
  Lemma u_rmax : rmax t = 2 ^ rbits t - 1.
  Proof using U. unfold rmax. now rewrite U. Qed.

  Lemma u_reducible : forall l v, wf_raw t v -> reducible t l v.
  Proof using W U.
    intros l v [A B]. apply u_range in A, B. unfold reducible. rewrite u_rmax. right. right. lia.
  Qed.

  (** Reducing is dividing by the greatest common divisor. *)
  Lemma u_lowest : forall l v, wf_raw t v -> den v <> 0 ->
    lowest l v = match l with Absent => v | _ => mkRaw (num v / Z.gcd (num v) (den v)) (den v / Z.gcd (num v) (den v)) end.
  Proof using W U.
    intros l v [A B] D. apply u_range in A, B. unfold lowest. destruct (Z.eqb_spec (den v) 0); [contradiction|].
    destruct (Z.ltb_spec (den v) 0); [lia|]. destruct l; reflexivity.
  Qed.

  Lemma m_div_u : forall a b, in_rep t a = true -> in_rep t b = true -> b <> 0 -> m_div t a b = Ok (a / b).
  Proof using W U.
    intros a b A B N. apply u_range in A, B. unfold m_div. destruct (Z.eqb_spec b 0); [contradiction|].
    rewrite Z.quot_div_nonneg by lia. apply arith_in; auto. apply u_range.
    split; [apply Z.div_pos; lia|]. apply Z.le_lt_trans with a; [|lia]. apply Z.div_le_upper_bound; [lia|]. nia.
  Qed.
  Lemma m_rem_u : forall a b, in_rep t a = true -> in_rep t b = true -> b <> 0 -> m_rem t a b = Ok (a mod b).
  Proof using W U.
    intros a b A B N. assert (IA := A). assert (IB := B). apply u_range in A, B. apply rem_holds; auto. split; auto. split.
    - rewrite Z.quot_div_nonneg by lia. rewrite u_rmax. apply Z.le_trans with a; [|lia]. apply Z.div_le_upper_bound; [lia|]. nia.
    - now rewrite Z.rem_mod_nonneg by lia.
  Qed.

  Lemma trunc_u : forall v k, wf_raw t v -> f_trunc t v = Ok k <-> den v <> 0 /\ k = num v / den v.
  Proof using W U.
    intros v k [A B]. unfold f_trunc. destruct (Z.eq_dec (den v) 0) as [E|N].
    - rewrite E. split; [discriminate|tauto].
    - rewrite m_div_u by auto. split; [intros H; injection H; auto|intros [_ ->]; auto].
  Qed.
  Lemma is_integer_u : forall v, wf_raw t v -> den v <> 0 -> is_integer t v = Ok (num v mod den v =? 0).
  Proof using W U.
    intros v [A B] N. unfold is_integer, is_defined. destruct (Z.eqb_spec (den v) 0); [contradiction|]. cbn [negb].
    rewrite m_rem_u by auto. reflexivity.
  Qed.
  Lemma quot_u : forall v, wf_raw t v -> den v <> 0 -> 0 <= num v / den v <= rmax t.
  Proof using W U.
    intros v [A B] N. apply u_range in A, B. rewrite u_rmax. split; [apply Z.div_pos; lia|].
    apply Z.le_trans with (num v); [|lia]. apply Z.div_le_upper_bound; [lia|]. nia.
  Qed.
  Lemma floor_u : forall v k, wf_raw t v -> f_floor t v = Ok k <-> den v <> 0 /\ k = num v / den v.
  Proof using W U.
    intros v k V. unfold f_floor. rewrite bind_iff. split.
    - intros (q & T & H). apply trunc_u in T as [N ->]; auto. rewrite is_integer_u in H by auto. cbn [bind] in H.
      pose proof (quot_u v V N). rewrite Z.geb_leb in H. destruct (Z.leb_spec 0 (num v / den v)); [|lia].
      rewrite orb_true_r in H. injection H as <-. auto.
    - intros [N ->]. exists (num v / den v). split; [now apply trunc_u|]. rewrite is_integer_u by auto. cbn [bind].
      pose proof (quot_u v V N). rewrite Z.geb_leb. destruct (Z.leb_spec 0 (num v / den v)); [|lia]. now rewrite orb_true_r.
  Qed.
  Lemma plus_one_u : forall v, wf_raw t v -> den v <> 0 -> num v mod den v <> 0 -> m_add t (num v / den v) 1 = Ok (num v / den v + 1).
  Proof using W U.
    intros v V N M. pose proof (quot_u v V N) as Q. destruct V as [A B]. apply u_range in A, B.
    apply arith_in; auto. apply u_range. rewrite u_rmax in Q. split; [lia|].
    assert (den v <> 1) by (intros E; rewrite E, Z.mod_1_r in M; auto).
    pose proof (Z.div_mod (num v) (den v) N). pose proof (Z.mod_pos_bound (num v) (den v) ltac:(lia)). pose proof u_pow. nia.
  Qed.
  Lemma ceil_u : forall v k, wf_raw t v ->
    f_ceil t v = Ok k <-> den v <> 0 /\ k = num v / den v + (if num v mod den v =? 0 then 0 else 1).
  Proof using W U.
    intros v k V. unfold f_ceil. rewrite bind_iff.
    assert (K : den v <> 0 -> (do i <- is_integer t v; if i || (num v / den v <? 0) then Ok (num v / den v) else m_add t (num v / den v) 1) =
      Ok (num v / den v + (if num v mod den v =? 0 then 0 else 1))).
    { intros N. rewrite is_integer_u by auto. cbn [bind]. pose proof (quot_u v V N).
      destruct (Z.ltb_spec (num v / den v) 0); [lia|]. rewrite orb_false_r.
      destruct (Z.eqb_spec (num v mod den v) 0); [now rewrite Z.add_0_r|now apply plus_one_u]. }
    split.
    - intros (q & T & H). apply trunc_u in T as [N ->]; auto. rewrite K in H by auto. injection H as <-. auto.
    - intros [N ->]. exists (num v / den v). split; [now apply trunc_u|]. now apply K.
  Qed.

  (** Fractions in lowest terms are not changed. *)
  Lemma lowest_coprime : forall l a b, 0 <= a < 2 ^ rbits t -> 0 < b < 2 ^ rbits t -> Z.gcd a b = 1 -> lowest l (mkRaw a b) = mkRaw a b.
  Proof using W U.
    intros l a b A B G. rewrite u_lowest; cbn [num den]; [|split; cbn [num den]; apply u_range; lia|lia].
    rewrite G, !Z.div_1_r. now destruct l.
  Qed.

  Lemma gcd_facts : forall v, wf_raw t v -> den v <> 0 -> let g := Z.gcd (num v) (den v) in
    0 < g /\ (exists a, num v = g * a /\ num v / g = a /\ 0 <= a <= num v) /\ (exists b, den v = g * b /\ den v / g = b /\ 0 < b <= den v) /\
    (exists x, num v mod den v = g * x /\ (num v mod den v) / g = x /\ 0 <= x < den v / g) /\
    Z.gcd (num v / g) (den v / g) = 1 /\ Z.gcd ((num v mod den v) / g) (den v / g) = 1.
  Proof using W U.
    intros v [A B] N g. apply u_range in A, B. assert (GP : 0 < g).
    { pose proof (Z.gcd_nonneg (num v) (den v)). assert (g <> 0); [|unfold g in *; lia]. intros E. apply Z.gcd_eq_0_r in E. contradiction. }
    assert (DA : (g | num v)) by apply Z.gcd_divide_l. assert (DB : (g | den v)) by apply Z.gcd_divide_r.
    assert (GM : Z.gcd (num v mod den v) (den v) = g) by (unfold g; rewrite Z.gcd_mod by lia; apply Z.gcd_comm).
    assert (DX : (g | num v mod den v)) by (rewrite <- GM; apply Z.gcd_divide_l).
    pose proof (Z.mod_pos_bound (num v) (den v) ltac:(lia)) as MB.
    assert (forall z, (g | z) -> 0 <= z -> exists a, z = g * a /\ z / g = a /\ 0 <= a <= z) as P.
    { intros z [a ->] Z0. exists a. rewrite Z.div_mul by lia. split; [ring|]. split; auto. nia. }
    split; auto. split; [apply P; auto; lia|]. destruct (P (den v) DB ltac:(lia)) as (b & B1 & B2 & B3).
    split; [exists b; repeat split; auto; nia|].
    destruct (P (num v mod den v) DX ltac:(lia)) as (x & X1 & X2 & X3).
    split; [exists x; repeat split; auto; [lia|]; rewrite B2; nia|].
    split; [apply Z.gcd_div_gcd; auto; lia|]. apply Z.gcd_div_gcd; auto; lia.
  Qed.

  Lemma lowest_wf : forall l v, wf_raw t v -> wf_raw t (lowest l v).
  Proof using W U.
    intros l v V. destruct (Z.eq_dec (den v) 0) as [E|N].
    - unfold lowest. destruct l; auto; rewrite E; cbn [Z.eqb]; (split; apply u_range; cbn [num den]; pose proof u_pow; lia).
    - rewrite u_lowest by auto. destruct (gcd_facts v V N) as (GP & (a & A1 & A2 & A3) & (b & B1 & B2 & B3) & _).
      rewrite A2, B2. pose proof V as [A B]. apply u_range in A, B. destruct l; auto; split; apply u_range; cbn [num den]; lia.
  Qed.

  Definition gi (v : raw) : Z := match effect (input_modes o) with Absent => 1 | _ => Z.gcd (num v) (den v) end.

  Lemma minus_u : forall v, wf_raw t v -> den v <> 0 ->
    p_arith (denote o) t Minus (RI v (num v / den v)) =
    Ok (lowest (effect (output_modes o)) (mkRaw ((num v mod den v) / gi v) (den v / gi v))).
  Proof using W U.
    intros v V N. pose proof (quot_u v V N) as Q. pose proof V as [A B].
    assert (IQ : in_rep t (num v / den v) = true) by (apply rep_range; auto).
    apply arith_outcome; [auto|now split|]. split; [now apply u_reducible|].
    destruct (gcd_facts v V N) as (GP & (a & A1 & A2 & A3) & (b & B1 & B2 & B3) & (x & X1 & X2 & X3) & _).
    set (g := Z.gcd (num v) (den v)) in *. apply u_range in A, B.
    assert (L : exists a' b' x', lowest (effect (input_modes o)) v = mkRaw a' b' /\ (num v mod den v) / gi v = x' /\ den v / gi v = b' /\
      a' - (num v / den v) * b' = x' /\ 0 <= x' < b' /\ 0 <= a' <= num v /\ 0 < b' <= den v).
    { unfold gi. rewrite u_lowest by auto. destruct (effect (input_modes o)).
      - exists (num v), (den v), (num v mod den v). rewrite !Z.div_1_r. pose proof (Z.div_mod (num v) (den v) N).
        pose proof (Z.mod_pos_bound (num v) (den v) ltac:(lia)). split; [now destruct v|]. repeat split; lia.
      - fold g. exists a, b, x. rewrite A2, B2, X2. rewrite B2 in X3. pose proof (Z.div_mod (num v) (den v) N) as DM. repeat split; try lia.
        set (q := num v / den v) in *. nia.
      - fold g. exists a, b, x. rewrite A2, B2, X2. rewrite B2 in X3. pose proof (Z.div_mod (num v) (den v) N) as DM. repeat split; try lia.
        set (q := num v / den v) in *. nia. }
    destruct L as (a' & b' & x' & L1 & L2 & L3 & L4 & L5 & L6 & L7). rewrite L2, L3. clear X1 X2 X3 A1 A2 B1 B2.
    assert (WL : wf_raw t (mkRaw a' b')) by (split; apply u_range; cbn [num den]; lia).
    assert (WX : wf_raw t (mkRaw x' b')) by (split; apply u_range; cbn [num den]; lia).
    exists (mkRaw x' b'). split; [|split; [now apply u_reducible|reflexivity]].
    cbn [lowest_args]. rewrite L1. unfold returns. exists a', (num v / den v * b'), x'.
    split; [apply numerators_ri; auto; cbn [num den]; split; auto; apply holds_in; auto; apply u_range; nia|].
    split; [apply holds_in; [auto|apply u_range; lia|lia]|]. split; auto. now apply denominator_ri.
  Qed.

  Lemma twice_lowest : forall v, wf_raw t v -> den v <> 0 ->
    lowest (effect (input_modes o)) (lowest (effect (output_modes o)) (mkRaw ((num v mod den v) / gi v) (den v / gi v))) =
    mkRaw ((num v mod den v) / cancelled o v) (den v / cancelled o v).
  Proof using W U.
    intros v V N. destruct (gcd_facts v V N) as (GP & _ & (b & B1 & B2 & B3) & (x & X1 & X2 & X3) & _ & G2).
    set (g := Z.gcd (num v) (den v)) in *. pose proof V as [A B]. apply u_range in A, B.
    assert (C : forall l, lowest l (mkRaw ((num v mod den v) / g) (den v / g)) = mkRaw ((num v mod den v) / g) (den v / g)).
    { intros l. apply lowest_coprime; auto; try lia. }
    pose proof (Z.mod_pos_bound (num v) (den v) ltac:(lia)) as MB.
    assert (E : Z.gcd (num v mod den v) (den v) = g) by (unfold g; rewrite Z.gcd_mod by lia; apply Z.gcd_comm).
    assert (L : forall l, l <> Absent -> lowest l (mkRaw (num v mod den v) (den v)) = mkRaw ((num v mod den v) / g) (den v / g)).
    { intros l NL. rewrite u_lowest; cbn [num den]; [|split; cbn [num den]; apply u_range; lia|auto]. rewrite E. destruct l; congruence. }
    unfold gi, cancelled, layered. fold g.
    destruct (effect (input_modes o)) eqn:EI, (effect (output_modes o)) eqn:EO; rewrite ?Z.div_1_r, ?C; try reflexivity;
      change (lowest Absent) with (fun v : raw => v); cbv beta; apply L; discriminate.
  Qed.

  Lemma lcm_two : forall d, 0 < d -> Z.lcm d 2 = if Z.even d then d else 2 * d.
  Proof using.
    intros d D. destruct (Z.even d) eqn:E.
    - apply Z.even_spec in E as [k K]. rewrite Z.lcm_comm. apply Z.divide_lcm_eq_r; [lia|]. exists k. lia.
    - assert (O : Z.odd d = true) by (rewrite <- Z.negb_even, E; reflexivity). apply Z.odd_spec in O as [k K].
      assert (G : Z.gcd d 2 = 1).
      { rewrite Z.gcd_comm, K. replace (2 * k + 1) with (1 + k * 2) by ring. rewrite Z.gcd_add_mult_diag_r. reflexivity. }
      rewrite (Z.gcd_1_lcm_mul d 2) in G by lia. lia.
  Qed.

  Lemma half_u : forall x d b, 0 <= x < d -> d < 2 ^ rbits t ->
    decides t (on_lcm o) Lt (RR (mkRaw x d) (mkRaw 1 2)) b <->
    (on_lcm o = true -> Z.even d = true \/ 2 * d <= rmax t) /\
    b = ((if on_lcm o then 2 * x else (2 * x) mod 2 ^ rbits t) <? d).
  Proof using W U.
    intros x d b X D. pose proof u_pow as P4. unfold decides. cbn [left_of right_of den num].
    destruct (Z.eqb_spec d 0); [lia|]. cbn [Z.eqb orb]. rewrite andb_false_r. unfold numerators, uses_lcm.
    cbn [two_fractions left_of right_of num den]. rewrite andb_true_r.
    assert (HU : forall z w, holds t z w <-> w = z mod 2 ^ rbits t) by (intros z w; unfold holds; now rewrite U).
    destruct (on_lcm o).
    - rewrite lcm_two by lia. rewrite u_rmax. destruct (Z.even d) eqn:E.
      + assert (E' := E). apply Z.even_spec in E' as [k K].
        assert (L1 : d / d = 1) by (apply Z.div_same; lia). assert (L2 : d / 2 = k) by (rewrite K, Z.mul_comm; apply Z.div_mul; lia).
        rewrite L1, L2. split.
        * intros (p & q & (_ & _ & _ & _ & _ & HX & HY) & ->). split; [auto|]. apply HU in HX, HY.
          rewrite Z.mod_small in HX, HY by lia. cbn [int_cmp]. subst.
          destruct (Z.ltb_spec (x * 1) (1 * k)), (Z.ltb_spec (2 * x) (2 * k)); auto; lia.
        * intros [_ ->]. exists x, k. split.
          { repeat split; try lia; apply HU; rewrite Z.mod_small by lia; lia. }
          cbn [int_cmp]. destruct (Z.ltb_spec x k), (Z.ltb_spec (2 * x) d); auto; lia.
      + assert (L1 : 2 * d / d = 2) by (apply Z.div_mul; lia). assert (L2 : 2 * d / 2 = d) by (rewrite Z.mul_comm; apply Z.div_mul; lia).
        rewrite L1, L2. split.
        * intros (p & q & (_ & _ & _ & _ & LE & HX & HY) & ->). split; [auto|]. apply HU in HX, HY.
          rewrite Z.mod_small in HX, HY by lia. cbn [int_cmp]. subst. f_equal; ring.
        * intros [LE ->]. destruct (LE eq_refl) as [F|LE']; [discriminate|]. exists (2 * x), d. split.
          { repeat split; try lia; apply HU; rewrite Z.mod_small by lia; lia. }
          reflexivity.
    - split.
      + intros (p & q & [HX HY] & ->). split; [discriminate|]. apply HU in HX, HY.
        rewrite (Z.mod_small (1 * d)) in HY by lia. cbn [int_cmp]. subst. rewrite (Z.mul_comm x 2). f_equal. ring.
      + intros [_ ->]. exists ((2 * x) mod 2 ^ rbits t), d. split.
        * split; apply HU; [now rewrite Z.mul_comm|]. rewrite Z.mod_small by lia. ring.
        * reflexivity.
  Qed.

  Theorem round_u : forall v k, wf_raw t v -> f_round (denote o) t v = Ok k <-> rounds o t v k.
  Proof using W U.
    intros v k V. unfold f_round. rewrite bind_iff. unfold rounds.
    assert (K : den v <> 0 -> (do d <- f_arith (denote o) t t Minus (RI v (num v / den v));
       do b <- f_cmp (denote o) t t Lt (RR d (mkRaw 1 2)); if b then Ok (num v / den v) else m_add t (num v / den v) 1) = Ok k <->
      (on_lcm o = true -> Z.even (den v / cancelled o v) = true \/ 2 * (den v / cancelled o v) <= rmax t) /\
      k = num v / den v + (if (if on_lcm o then 2 * ((num v mod den v) / cancelled o v) else (2 * ((num v mod den v) / cancelled o v)) mod 2 ^ rbits t) <? den v / cancelled o v then 0 else 1)).
    { intros N. rewrite f_arith_self, minus_u by auto. cbn [bind]. rewrite f_cmp_self. rewrite bind_iff.
      destruct (gcd_facts v V N) as (GP & _ & (b & B1 & B2 & B3) & (x & X1 & X2 & X3) & _).
      set (g := Z.gcd (num v) (den v)) in *. pose proof V as [A B]. apply u_range in A, B.
      pose proof (Z.mod_pos_bound (num v) (den v) ltac:(lia)) as MB. pose proof u_pow as P4.
      assert (WG : wf_raw t (mkRaw ((num v mod den v) / gi v) (den v / gi v))).
      { unfold gi. fold g. split; apply u_range; cbn [num den]; destruct (effect (input_modes o)); rewrite ?Z.div_1_r, ?X2, ?B2; nia. }
      assert (CB : 0 <= (num v mod den v) / cancelled o v < den v / cancelled o v /\ den v / cancelled o v <= den v).
      { unfold cancelled. fold g. destruct (layered o); rewrite ?Z.div_1_r, ?X2, ?B2; [rewrite B2 in X3|]; lia. }
      assert (WO : wf_raw t (lowest (effect (output_modes o)) (mkRaw ((num v mod den v) / gi v) (den v / gi v)))).
      { now apply lowest_wf. }
      assert (W12 : wf_raw t (mkRaw 1 2)) by (split; apply u_range; cbn [num den]; lia).
      assert (CMP : forall r, p_cmp (denote o) t Lt (RR (lowest (effect (output_modes o)) (mkRaw ((num v mod den v) / gi v) (den v / gi v))) (mkRaw 1 2)) = Ok r <->
        (on_lcm o = true -> Z.even (den v / cancelled o v) = true \/ 2 * (den v / cancelled o v) <= rmax t) /\
        r = ((if on_lcm o then 2 * ((num v mod den v) / cancelled o v) else (2 * ((num v mod den v) / cancelled o v)) mod 2 ^ rbits t) <? den v / cancelled o v)).
      { intros r. rewrite cmp_outcome by (auto; now split). cbn [lowest_args reducible_args]. rewrite twice_lowest by auto.
        rewrite (lowest_coprime _ 1 2); [|lia|lia|reflexivity]. rewrite half_u by lia.
        split; [tauto|]. intros H. split; auto. split; now apply u_reducible. }
      set (bb := (if on_lcm o then 2 * ((num v mod den v) / cancelled o v) else (2 * ((num v mod den v) / cancelled o v)) mod 2 ^ rbits t) <? den v / cancelled o v) in *.
      assert (FIN : (if bb then Ok (num v / den v) else m_add t (num v / den v) 1) = Ok (num v / den v + (if bb then 0 else 1))).
      { destruct bb eqn:BE; [now rewrite Z.add_0_r|]. apply plus_one_u; auto. intros M0. unfold bb in BE. rewrite M0 in BE.
        rewrite Z.div_0_l in BE by (unfold cancelled; fold g; destruct (layered o); lia). rewrite Z.mul_0_r in BE.
        rewrite Z.mod_0_l in BE by lia. destruct (on_lcm o); apply Z.ltb_ge in BE; lia. }
      split.
      - intros (r & C & H). apply CMP in C as [C1 ->]. split; auto. rewrite FIN in H. now injection H as <-.
      - intros [C1 ->]. exists bb. split; [now apply CMP|exact FIN]. }
    split.
    - intros (f & F & H). apply floor_u in F as [N ->]; auto. apply (K N) in H. tauto.
    - intros (N & C & H). exists (num v / den v). split; [now apply floor_u|]. apply (K N). auto.
  Qed.

  (** ** Redenominating *)

  Lemma scaled_u : forall v d, wf_raw t v -> in_rep t d = true -> den v <> 0 ->
    p_arith (denote o) t Multiplies (RI v d) = Ok (scaled o t v d) /\ wf_raw t (scaled o t v d) /\ den (scaled o t v d) <> 0.
  Proof using W U.
    intros v d V D N. pose proof V as [A B]. apply u_range in A, B. assert (DR := D). apply u_range in DR.
    assert (L : exists a' b', lowest (effect (input_modes o)) v = mkRaw a' b' /\ 0 <= a' <= num v /\ 0 < b' <= den v).
    { destruct (gcd_facts v V N) as (GP & (a & A1 & A2 & A3) & (b & B1 & B2 & B3) & _). rewrite u_lowest by auto.
      destruct (effect (input_modes o)); [exists (num v), (den v); (split; [now destruct v|]); repeat split; lia| |];
      exists a, b; rewrite A2, B2; repeat split; lia. }
    destruct L as (a' & b' & L1 & L2 & L3). unfold scaled. rewrite L1. cbn [num den].
    pose proof (Z.mod_pos_bound (a' * d) (2 ^ rbits t) ltac:(pose proof u_pow; lia)) as MB.
    assert (WX : wf_raw t (mkRaw ((a' * d) mod 2 ^ rbits t) b')) by (split; apply u_range; cbn [num den]; lia).
    split; [|split].
    - apply arith_outcome; [auto|now split|]. split; [now apply u_reducible|].
      exists (mkRaw ((a' * d) mod 2 ^ rbits t) b'). split; [|split; [now apply u_reducible|reflexivity]].
      cbn [lowest_args]. rewrite L1. unfold returns. cbn [left_of right_of num den]. rewrite Z.mul_1_r. split.
      + unfold holds. now rewrite U.
      + apply holds_in; auto. apply u_range. lia.
    - now apply lowest_wf.
    - rewrite u_lowest; cbn [num den]; [|auto|lia].
      assert (N' : den (mkRaw ((a' * d) mod 2 ^ rbits t) b') <> 0) by (cbn [den]; lia).
      destruct (gcd_facts _ WX N') as (_ & _ & (b & B1 & B2 & B3) & _). cbn [num den] in *.
      destruct (effect (output_modes o)); cbn [den]; lia.
  Qed.

  Lemma times_undefined : forall v d x, wf_raw t v -> in_rep t d = true -> p_arith (denote o) t Multiplies (RI v d) = Ok x ->
    den v = 0 -> den x = 0.
  Proof using W U.
    intros v d x V D H Z0. apply arith_outcome in H; [|auto|now split]. destruct H as (_ & y & R & _ & ->).
    cbn [lowest_args] in R. unfold returns in R. cbn [left_of right_of den] in R. destruct R as [_ R]. unfold holds in R. rewrite U in R.
    replace (den (lowest (effect (input_modes o)) v)) with 0 in R.
    - rewrite Z.mul_0_l, Z.mod_0_l in R by (pose proof u_pow; lia). unfold lowest. destruct (effect (output_modes o)); auto; rewrite R; reflexivity.
    - unfold lowest. destruct (effect (input_modes o)); auto; rewrite Z0; reflexivity.
  Qed.

  Theorem redenominate_u : forall v d m r, wf_raw t v -> in_rep t d = true ->
    f_redenominate (denote o) t v d m = Ok r <->
    den v <> 0 /\ den r = d /\
    match m with
    | round_trunc | round_floor => num r = num (scaled o t v d) / den (scaled o t v d)
    | round_ceil => num r = num (scaled o t v d) / den (scaled o t v d) + (if num (scaled o t v d) mod den (scaled o t v d) =? 0 then 0 else 1)
    | round_round => rounds o t (scaled o t v d) (num r)
    end.
  Proof using W U.
    intros v d m r V D. assert (DG : d >=? 0 = true) by (apply u_range in D; rewrite Z.geb_leb; apply Z.leb_le; lia).
    assert (GEN : forall (f : raw -> res Z) (P : Z -> Prop),
      (forall k, den v <> 0 -> f (scaled o t v d) = Ok k <-> P k) -> (forall x k, wf_raw t x -> f x = Ok k -> den x <> 0) ->
      (do x <- f_arith (denote o) t t Multiplies (RI v d); do n <- f x; Ok (mkRaw n d)) = Ok r <-> den v <> 0 /\ den r = d /\ P (num r)).
    { intros f P F0 F1. rewrite f_arith_self. destruct (Z.eq_dec (den v) 0) as [Z0|N].
      - split; [|tauto]. intros H. inv_bind H. inv_bind H. exfalso. assert (WA : wf_raw t a).
        { apply (arith_wf o t Multiplies (RI v d)); auto. now split. }
        apply (F1 a a0 WA E0). now apply (times_undefined v d).
      - destruct (scaled_u v d V D N) as (E & WS & DS). rewrite E. cbn [bind]. rewrite bind_iff. split.
        + intros (k & K & H). injection H as <-. cbn [num den]. split; auto. split; auto. now apply F0.
        + intros (_ & <- & H). exists (num r). split; [now apply F0|now destruct r]. }
    assert (S : den v <> 0 -> wf_raw t (scaled o t v d) /\ den (scaled o t v d) <> 0) by (intros N; now apply scaled_u).
    destruct m; cbn [f_redenominate]; unfold f_trunc_redenominate, f_ceil_redenominate, f_floor_redenominate, f_round_redenominate; rewrite ?DG.
    - apply (GEN (f_trunc t) (fun k => k = num (scaled o t v d) / den (scaled o t v d))).
      + intros k N. rewrite trunc_u by now apply S. split; [tauto|]. intros H. split; auto. now apply S.
      + intros x k X H. now apply trunc_u in H.
    - apply (GEN (f_ceil t) (fun k => k = num (scaled o t v d) / den (scaled o t v d) + (if num (scaled o t v d) mod den (scaled o t v d) =? 0 then 0 else 1))).
      + intros k N. rewrite ceil_u by now apply S. split; [tauto|]. intros H. split; auto. now apply S.
      + intros x k X H. now apply ceil_u in H.
    - apply (GEN (f_floor t) (fun k => k = num (scaled o t v d) / den (scaled o t v d))).
      + intros k N. rewrite floor_u by now apply S. split; [tauto|]. intros H. split; auto. now apply S.
      + intros x k X H. now apply floor_u in H.
    - apply (GEN (f_round (denote o) t) (rounds o t (scaled o t v d))).
      + intros k N. apply round_u. now apply S.
      + intros x k X H. apply round_u in H; auto. now destruct H.
  Qed.

  (** ** Meaning *)

  Lemma is_round_int : forall k n d, 0 < d -> is_round k (inject_Z n / inject_Z d)%Q <-> (2 * k - 1) * d <= 2 * n < (2 * k + 1) * d.
  Proof using.
    intros k n d D. unfold is_round.
    assert (E1 : (inject_Z k - (1 # 2) == inject_Z (2 * k - 1) / inject_Z 2)%Q).
    { unfold Z.sub. rewrite inject_Z_plus, inject_Z_mult. change (inject_Z (- (1))) with (-1)%Q. change (inject_Z 2) with 2%Q. field. }
    assert (E2 : (inject_Z k + (1 # 2) == inject_Z (2 * k + 1) / inject_Z 2)%Q).
    { rewrite inject_Z_plus, inject_Z_mult. change (inject_Z 1) with 1%Q. change (inject_Z 2) with 2%Q. field. }
    rewrite E1, E2, qdiv_le, qdiv_lt by lia. nia.
  Qed.

  Theorem rounds_exact : forall v k, wf_raw t v -> on_lcm o = true \/ 2 * (den v / cancelled o v) <= 2 ^ rbits t -> rounds o t v k ->
    exists q, value v = Some q /\ is_round k q.
  Proof using W U.
    intros v k V C (N & _ & ->). rewrite value_defined by auto. eexists. split; [reflexivity|].
    destruct (gcd_facts v V N) as (GP & _ & (b & B1 & B2 & B3) & (x & X1 & X2 & X3) & _).
    set (g := Z.gcd (num v) (den v)) in *. pose proof V as [A B]. apply u_range in A, B.
    pose proof (Z.mod_pos_bound (num v) (den v) ltac:(lia)) as MB. pose proof (Z.div_mod (num v) (den v) N) as DM.
    apply is_round_int; [lia|].
    assert (K : exists c y e, cancelled o v = c /\ 0 < c /\ (num v mod den v) / cancelled o v = y /\ den v / cancelled o v = e /\
      num v mod den v = c * y /\ den v = c * e /\ 0 <= y < e).
    { unfold cancelled. fold g. destruct (layered o).
      - exists g, x, b. rewrite B2 in X3. repeat split; auto; lia.
      - exists 1, (num v mod den v), (den v). rewrite !Z.div_1_r. repeat split; lia. }
    destruct K as (c & y & e & KC & CP & KY & KE & MY & DE & YE). rewrite KY, KE in *.
    assert (SM : (if on_lcm o then 2 * y else (2 * y) mod 2 ^ rbits t) = 2 * y).
    { destruct (on_lcm o); auto. destruct C as [C|C]; [discriminate|]. apply Z.mod_small. lia. }
    rewrite SM. set (q := num v / den v) in *. rewrite MY in DM. clearbody q. destruct (Z.ltb_spec (2 * y) e); nia.
  Qed.

  Theorem scaled_exact : forall v d q, wf_raw t v -> in_rep t d = true -> value v = Some q ->
    num (lowest (effect (input_modes o)) v) * d <= rmax t ->
    exists s, value (scaled o t v d) = Some s /\ (s == q * inject_Z d)%Q.
  Proof using W U.
    intros v d q V D VQ F. assert (N : den v <> 0) by (intros E; unfold value in VQ; rewrite E in VQ; discriminate).
    destruct (scaled_u v d V D N) as (E & WS & DS). rewrite value_defined by auto. eexists. split; [reflexivity|].
    rewrite value_defined in VQ by auto. injection VQ as <-.
    assert (QE : forall a b c e, b <> 0 -> e <> 0 -> a * e = c * b -> (inject_Z a / inject_Z b == inject_Z c / inject_Z e)%Q).
    { intros a b c e NB NE EQ. apply qdiv_eq; auto. }
    assert (M : (inject_Z (num v) / inject_Z (den v) * inject_Z d == inject_Z (num v * d) / inject_Z (den v))%Q).
    { rewrite inject_Z_mult. field. intros Z0. apply N. exact (proj1 (inject_Z_injective (den v) 0) Z0). }
    rewrite M. apply QE; auto. apply u_range in D. rewrite u_rmax in F. unfold scaled in *.
    assert (L : exists a b c, lowest (effect (input_modes o)) v = mkRaw a b /\ num v = c * a /\ den v = c * b /\ c <> 0 /\ 0 <= a /\ 0 < b < 2 ^ rbits t).
    { destruct (gcd_facts v V N) as (GP & (a & A1 & A2 & A3) & (b & B1 & B2 & B3) & _). pose proof V as [A B]. apply u_range in A, B.
      rewrite u_lowest by auto. destruct (effect (input_modes o)).
      - exists (num v), (den v), 1. split; [now destruct v|]. repeat split; lia.
      - exists a, b, (Z.gcd (num v) (den v)). rewrite A2, B2. repeat split; auto; lia.
      - exists a, b, (Z.gcd (num v) (den v)). rewrite A2, B2. repeat split; auto; lia. }
    destruct L as (a & b & c & L & A & B & C & A0 & B0). rewrite L in *. cbn [num den] in *. rewrite Z.mod_small in * by nia.
    assert (WX : wf_raw t (mkRaw (a * d) b)) by (split; apply u_range; cbn [num den]; nia).
    assert (NX : den (mkRaw (a * d) b) <> 0) by (cbn [den]; lia).
    rewrite u_lowest by auto. destruct (gcd_facts _ WX NX) as (GP & (a' & A1 & A2 & A3) & (b' & B1 & B2 & B3) & _).
    destruct (effect (output_modes o)); cbn [num den] in *; rewrite ?A2, ?B2; nia.
  Qed.
End Unsigned.
