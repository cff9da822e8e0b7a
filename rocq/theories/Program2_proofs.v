(** Client programs whose values stay small run without undefined behaviour. *)

From Coq Require Import ZArith QArith Qabs Bool Lia.
From Verif Require Import Machine Raw Ops Spec Fraction Fmath Mixed_spec Program Program_spec Fraction_spec.
From Verif Require Import Machine_proofs Value_proofs Ops_proofs Total_proofs Cmp_proofs Order_proofs Algebra_proofs
  Qtrunc_proofs Laws_proofs Fraction_proofs Fmath_proofs Mixed_proofs Program_proofs.
Open Scope Z_scope.

Lemma low_small : forall B t v q, low t v q -> small B q = true ->
  raw_bounded B v /\ exists x, q = Some x /\ value v <> None.
Proof.
  intros B t v q [W [C V]] S. destruct q as [x|]; [|discriminate]. cbn in S.
  apply andb_prop in S as [S1 S2]. destruct (canonical_parts _ _ C V) as [N D].
  split; [|exists x; split; auto; intros E; now rewrite E in V].
  unfold raw_bounded. rewrite N, D. split; lia.
Qed.

Lemma small_some : forall B q, small B q = true -> exists x, q = Some x.
Proof. intros B [x|] H; [eauto|discriminate]. Qed.

Lemma room_le : forall B t, wf_rep t -> room B t -> B <= rmax t /\ B * B <= rmax t.
Proof. intros B t W R. unfold room in R. pose proof (rmax_big t W). split; nia. Qed.

Lemma step_arith_total : forall o t op a ql qr B, signed_rep t -> room B t -> wf_args t a -> args_bounded B a ->
  left_value a <> None -> right_value a <> None ->
  same_value (left_value a) ql -> same_value (right_value a) qr ->
  exact_opt op ql qr <> None -> exists r, p_arith (denote o) t op a = Ok r.
Proof.
  intros o t op a ql qr B [W S] Rm A Bd L1 R1 L R X.
  destruct ql as [x|]; [|contradiction X; reflexivity].
  destruct qr as [y|]; [|contradiction X; reflexivity].
  cbn in X. destruct (exact op x y) as [q|] eqn:E; [|contradiction X; reflexivity].
  destruct (total_step o t op a B x y q) as [r [H _]]; eauto.
Qed.

Lemma ieval_total : forall B ty s q i, wf_store ty s -> represents s q -> wf_i ty i ->
  ismall B q i = true -> exists z, ieval ty s i = Ok z /\ Z.abs z <= B.
Proof.
  intros B ty s q i W R F S. 
  assert (T : exists z, ieval ty s i = Ok z).
  { destruct i as [t z|x|x|x]; cbn in *; eauto.
    apply f_trunc_defined; try apply W. split.
    - unfold ismall in S. cbn in S. specialize (R x). destruct (q x); [|discriminate].
      intros D. apply value_none_iff in D. now rewrite D in R.
    - destruct (W x) as [_ [_ C]]. destruct C as [[_ D]|[D _]]; intros [_ [_ E]]; lia. }
  destruct T as [z E]. exists z. split; auto.
  destruct (ieval_sim _ _ _ _ _ W R F E) as [_ M]. unfold ismall in S. rewrite M in S. lia.
Qed.

Lemma fsmall_small : forall B s e, fsmall B s e = true -> small B (fmeaning s e) = true.
Proof. intros B s [] H; cbn [fsmall] in H; now apply andb_prop in H. Qed.

Lemma reduce_low_total : forall B t v m, wf_rep t -> room B t -> wf_raw t v -> raw_bounded B v ->
  exists r, reduce t v m = Ok r.
Proof.
  intros B t v m W R A [N D]. pose proof (room_le _ _ W R). apply reduce_total; auto; lia.
Qed.

Lemma feval_total : forall o B ty s q e, output_canonical o = true -> wf_store ty s -> represents s q ->
  wf_f ty e -> room_f B ty e -> fsmall B q e = true -> exists v, feval (denote o) ty s e = Ok v.
Proof.
  intros o B ty s q e O W R.
  assert (K : forall e v, wf_f ty e -> fsmall B q e = true -> feval (denote o) ty s e = Ok v ->
    low (ftype ty e) v (fmeaning q e) /\ raw_bounded B v /\ value v <> None).
  { intros e0 v F S H. pose proof (feval_sim _ _ _ _ _ _ O W R F H) as L.
    destruct (low_small _ _ _ _ L (fsmall_small _ _ _ S)) as [Bd [x [_ N]]]. auto. }
  assert (X : forall e, fsmall B q e = true -> fmeaning q e <> None).
  { intros e0 S. apply fsmall_small, small_some in S as [x ->]. discriminate. }
  induction e as [x|t r|i|e IH|e IH|e IH|e IH|op l IHl r IHr|op l IHl i|op i r IHr]; intros F Rm S;
    pose proof (X _ S) as D; pose proof S as S'; cbn [fsmall] in S; apply andb_prop in S as [_ S]; cbn in F, Rm |- *; eauto.
  - destruct (ieval_total _ _ _ _ _ W R F S) as [z [-> _]]. cbn. eauto.
  - destruct (IH F Rm S) as [v ->]. cbn. eauto.
  - destruct Rm as [R1 Rm]. destruct (IH F Rm S) as [v E]. rewrite E. cbn. destruct (K _ _ F S E) as [[A _] [Bd _]].
    pose proof (ftype_signed _ _ _ W F) as [S1 S2].
    destruct (negate_bounded o _ v B S1 S2 A Bd) as [r [H _]]; [now apply room_le|eauto].
  - destruct Rm as [R1 Rm]. destruct (IH F Rm S) as [v E]. rewrite E. cbn. destruct (K _ _ F S E) as [[A _] [Bd _]].
    pose proof (ftype_signed _ _ _ W F) as [S1 S2].
    unfold f_abs. destruct (is_non_negative v); [eauto|].
    destruct (negate_bounded o _ v B S1 S2 A Bd) as [r [H _]]; [now apply room_le|eauto].
  - destruct Rm as [R1 Rm]. destruct (IH F Rm S) as [v E]. rewrite E. cbn [bind]. destruct (K _ _ F S E) as [[A _] [Bd _]].
    apply (reduce_low_total B _ _ normalize_signs_mode); auto. eapply ftype_signed; eauto.
  - apply andb_prop in S as [Sl Sr]. destruct F as [Fl Fr], Rm as [Rc [Rl Rr]].
    destruct (IHl Fl Rl Sl) as [x Ex], (IHr Fr Rr Sr) as [y Ey]. rewrite Ex, Ey. cbn [bind].
    destruct (K _ _ Fl Sl Ex) as [Lx [Bx Nx]], (K _ _ Fr Sr Ey) as [Ly [By Ny]].
    pose proof (ftype_signed _ _ _ W Fl) as Tl. pose proof (ftype_signed _ _ _ W Fr) as Tr.
    destruct (common_signed _ _ Tl Tr) as [Tc [Bl Br]].
    destruct (conv_low _ _ _ _ Tl Tc Bl Lx) as [El [Al [Cl Vl]]].
    destruct (conv_low _ _ _ _ Tr Tc Br Ly) as [Er [Ar [Cr Vr]]].
    unfold f_arith, common_args. rewrite El, Er.
    apply (step_arith_total o _ op _ (fmeaning q l) (fmeaning q r) B); auto; try (split; assumption).
  - apply andb_prop in S as [Sl Si]. destruct F as [Fl Fi], Rm as [Rc Rl].
    destruct (IHl Fl Rl Sl) as [x Ex], (ieval_total _ _ _ _ _ W R Fi Si) as [z [Ez Bz]]. rewrite Ex, Ez. cbn [bind].
    destruct (K _ _ Fl Sl Ex) as [Lx [Bx Nx]]. destruct (ieval_sim _ _ _ _ _ W R Fi Ez) as [Ai Mi].
    pose proof (ftype_signed _ _ _ W Fl) as Tl. pose proof (itype_signed _ _ _ W Fi) as Tr.
    destruct (common_signed _ _ Tl Tr) as [Tc [Bl Br]].
    destruct (conv_low _ _ _ _ Tl Tc Bl Lx) as [El [Al [Cl Vl]]].
    destruct (int_conv _ _ _ _ _ W Fi Tc Ai Br) as [Er Ar].
    unfold f_arith, common_args. rewrite El, Er. cbn in D. rewrite Mi in D.
    apply (step_arith_total o _ op _ (fmeaning q l) (int_value (Some z)) B); auto; try (split; assumption);
      try discriminate; try reflexivity.
  - apply andb_prop in S as [Si Sr]. destruct F as [Fi Fr], Rm as [Rc Rr].
    destruct (IHr Fr Rr Sr) as [x Ex], (ieval_total _ _ _ _ _ W R Fi Si) as [z [Ez Bz]]. rewrite Ex, Ez. cbn [bind].
    destruct (K _ _ Fr Sr Ex) as [Lx [Bx Nx]]. destruct (ieval_sim _ _ _ _ _ W R Fi Ez) as [Ai Mi].
    pose proof (ftype_signed _ _ _ W Fr) as Tr. pose proof (itype_signed _ _ _ W Fi) as Tl.
    destruct (common_signed _ _ Tl Tr) as [Tc [Bl Br]].
    destruct (conv_low _ _ _ _ Tr Tc Br Lx) as [Er [Ar [Cr Vr]]].
    destruct (int_conv _ _ _ _ _ W Fi Tc Ai Bl) as [El Al].
    unfold f_arith, common_args. rewrite El, Er. cbn in D. rewrite Mi in D.
    apply (step_arith_total o _ op _ (int_value (Some z)) (fmeaning q r) B); auto; try (split; assumption);
      try discriminate; try reflexivity.
Qed.

Lemma step_cmp_total : forall o t op a B, signed_rep t -> room B t -> wf_args t a -> args_bounded B a ->
  match a with
  | RR x y => canonical x /\ canonical y
  | RI x _ => canonical x
  | IR _ y => canonical y
  end -> left_value a <> None -> right_value a <> None ->
  exists b, p_cmp (denote o) t op a = Ok b.
Proof.
  intros o t op a B [W S] Rm A Bd C L R. pose proof (room_le _ _ W Rm) as [B1 B2].
  eexists. eapply denote_cmp_total; eauto. right. apply order_domain_positive.
  destruct a; cbn in *; repeat split; repeat apply canonical_dens; try tauto; congruence.
Qed.

Lemma beval_total : forall o B ty s q b, output_canonical o = true -> wf_store ty s -> represents s q ->
  wf_b ty b -> room_b B ty b -> bsmall B q b = true -> exists v, beval (denote o) ty s b = Ok v.
Proof.
  intros o B ty s q b O W R.
  assert (K : forall e, wf_f ty e -> room_f B ty e -> fsmall B q e = true -> exists v, feval (denote o) ty s e = Ok v /\
    low (ftype ty e) v (fmeaning q e) /\ raw_bounded B v /\ value v <> None).
  { intros e F Rm S. destruct (feval_total o B ty s q e O W R F Rm S) as [v H]. exists v. split; auto.
    pose proof (feval_sim _ _ _ _ _ _ O W R F H) as L.
    destruct (low_small _ _ _ _ L (fsmall_small _ _ _ S)) as [Bd [x [_ N]]]. auto. }
  induction b as [op l r|op l i|op i r|b IH|a IHa b IHb|a IHa b IHb]; intros F Rm S; cbn in F, Rm, S |- *.
  - apply andb_prop in S as [Sl Sr]. destruct F as [Fl Fr], Rm as [Rc [Rl Rr]].
    destruct (K _ Fl Rl Sl) as [x [Ex [Lx [Bx Nx]]]], (K _ Fr Rr Sr) as [y [Ey [Ly [By Ny]]]]. rewrite Ex, Ey. cbn [bind].
    pose proof (ftype_signed _ _ _ W Fl) as Tl. pose proof (ftype_signed _ _ _ W Fr) as Tr.
    destruct (common_signed _ _ Tl Tr) as [Tc [Bl Br]].
    destruct (conv_low _ _ _ _ Tl Tc Bl Lx) as [El [Al [Cl Vl]]].
    destruct (conv_low _ _ _ _ Tr Tc Br Ly) as [Er [Ar [Cr Vr]]].
    unfold f_cmp, common_args. rewrite El, Er.
    apply (step_cmp_total o _ op _ B); auto; try (split; assumption).
  - apply andb_prop in S as [Sl Si]. destruct F as [Fl Fi], Rm as [Rc Rl].
    destruct (K _ Fl Rl Sl) as [x [Ex [Lx [Bx Nx]]]], (ieval_total _ _ _ _ _ W R Fi Si) as [z [Ez Bz]]. rewrite Ex, Ez. cbn [bind].
    destruct (ieval_sim _ _ _ _ _ W R Fi Ez) as [Ai Mi].
    pose proof (ftype_signed _ _ _ W Fl) as Tl. pose proof (itype_signed _ _ _ W Fi) as Tr.
    destruct (common_signed _ _ Tl Tr) as [Tc [Bl Br]].
    destruct (conv_low _ _ _ _ Tl Tc Bl Lx) as [El [Al [Cl Vl]]].
    destruct (int_conv _ _ _ _ _ W Fi Tc Ai Br) as [Er Ar].
    unfold f_cmp, common_args. rewrite El, Er.
    apply (step_cmp_total o _ op _ B); auto; try (split; assumption); try discriminate.
  - apply andb_prop in S as [Si Sr]. destruct F as [Fi Fr], Rm as [Rc Rr].
    destruct (K _ Fr Rr Sr) as [x [Ex [Lx [Bx Nx]]]], (ieval_total _ _ _ _ _ W R Fi Si) as [z [Ez Bz]]. rewrite Ex, Ez. cbn [bind].
    destruct (ieval_sim _ _ _ _ _ W R Fi Ez) as [Ai Mi].
    pose proof (ftype_signed _ _ _ W Fr) as Tr. pose proof (itype_signed _ _ _ W Fi) as Tl.
    destruct (common_signed _ _ Tl Tr) as [Tc [Bl Br]].
    destruct (conv_low _ _ _ _ Tr Tc Br Lx) as [Er [Ar [Cr Vr]]].
    destruct (int_conv _ _ _ _ _ W Fi Tc Ai Bl) as [El Al].
    unfold f_cmp, common_args. rewrite El, Er.
    apply (step_cmp_total o _ op _ B); auto; try (split; assumption); try discriminate.
  - destruct (IH F Rm S) as [v ->]. cbn. eauto.
  - apply andb_prop in S as [Sa Sb]. destruct F as [Fa Fb], Rm as [Ra Rb].
    destruct (IHa Fa Ra Sa) as [v E]. rewrite E. cbn [bind].
    rewrite (beval_sim _ _ _ _ _ _ O W R Fa E). destruct (bmeaning q a); eauto.
  - apply andb_prop in S as [Sa Sb]. destruct F as [Fa Fb], Rm as [Ra Rb].
    destruct (IHa Fa Ra Sa) as [v E]. rewrite E. cbn [bind].
    rewrite (beval_sim _ _ _ _ _ _ O W R Fa E). destruct (bmeaning q a); eauto.
Qed.

Lemma run_small_run : forall B fuel s c s', run_small B fuel s c = Some s' -> run fuel s c = Some s'.
Proof.
  intros B fuel. induction fuel as [|fuel IH]; intros s c s' H; [discriminate|].
  destruct c as [|x e|op x e|op x i|a b|b x y|b x]; cbn [run_small run] in *; auto.
  - destruct (fsmall B s e); [auto|discriminate].
  - destruct (_ && _); [auto|discriminate].
  - destruct (_ && _); [auto|discriminate].
  - destruct (run_small B fuel s a) as [s1|] eqn:E; [|discriminate]. rewrite (IH _ _ _ E). auto.
  - destruct (bsmall B s b); [auto|discriminate].
  - destruct (bsmall B s b); [|discriminate]. destruct (bmeaning s b); auto.
    destruct (run_small B fuel s x) as [s1|] eqn:E; [|discriminate]. rewrite (IH _ _ _ E). auto.
Qed.

Lemma exec_defined : forall o B ty fuel s q c q', output_canonical o = true -> wf_store ty s -> represents s q ->
  wf_s ty c -> room_s B ty c -> run_small B fuel q c = Some q' ->
  exists s', exec (denote o) ty fuel s c = Some (Ok s').
Proof.
  intros o B ty fuel. induction fuel as [|fuel IH]; intros s q c q' O W R F Rm H; [discriminate|].
  assert (SIM : forall s1 q1 c1, wf_store ty s1 -> represents s1 q1 -> wf_s ty c1 ->
    outcome_matches ty (exec (denote o) ty fuel s1 c1) (run fuel q1 c1)) by (intros; now apply exec_sim).
  destruct c as [|x e|op x e|op x i|a b|b x y|b x]; cbn [exec run_small] in H |- *; cbn in F, Rm.
  - eauto.
  - destruct (fsmall B q e) eqn:S; [|discriminate].
    destruct (feval_total o B ty s q e O W R (proj1 F) Rm S) as [v ->]. cbn. eauto.
  - destruct (_ && _) eqn:S; [|discriminate]. apply andb_prop in S as [S Sv]. apply andb_prop in S as [Sx Se].
    destruct F as [F B0], Rm as [Rx Re].
    destruct (feval_total o B ty s q e O W R F Re Se) as [v E]. rewrite E. cbn [bind].
    pose proof (feval_sim _ _ _ _ _ _ O W R F E) as L. destruct (W x) as [Tx [Ax Cx]].
    destruct (low_small _ _ _ _ L (fsmall_small _ _ _ Se)) as [Bv [_ [_ Nv]]].
    destruct (low_small B (ty x) (s x) (q x)) as [Bx [_ [_ Nx]]]; [split; [|split]; auto; apply R|auto|].
    destruct (conv_low _ _ _ _ (ftype_signed _ _ _ W F) Tx B0 L) as [Ec [A [C V]]].
    cbn [f_assign]. rewrite Ec, f_arith_self.
    destruct (step_arith_total o (ty x) op (RR (s x) v) (q x) (fmeaning q e) B) as [r ->]; auto; try (split; assumption);
      try apply R.
    + destruct (small_some _ _ Sv) as [y ->]. discriminate.
    + cbn. eauto.
  - destruct (_ && _) eqn:S; [|discriminate]. apply andb_prop in S as [S Sv]. apply andb_prop in S as [Sx Si].
    destruct F as [F B0].
    destruct (ieval_total _ _ _ _ _ W R F Si) as [z [Ez Bz]]. rewrite Ez. cbn [bind].
    destruct (ieval_sim _ _ _ _ _ W R F Ez) as [Ai Mi]. destruct (W x) as [Tx [Ax Cx]].
    destruct (low_small B (ty x) (s x) (q x)) as [Bx [_ [_ Nx]]]; [split; [|split]; auto; apply R|auto|].
    destruct (int_conv _ _ _ _ _ W F Tx Ai B0) as [Ec A'].
    cbn [f_assign]. rewrite Ec, f_arith_self. rewrite Mi in Sv.
    destruct (step_arith_total o (ty x) op (RI (s x) z) (q x) (int_value (Some z)) B) as [r ->]; auto; try (split; assumption);
      try discriminate; try reflexivity; try apply R.
    + destruct (small_some _ _ Sv) as [y ->]. discriminate.
    + cbn. eauto.
  - destruct F as [Fa Fb], Rm as [Ra Rb].
    destruct (run_small B fuel q a) as [q1|] eqn:E; [|discriminate].
    destruct (IH s q a q1 O W R Fa Ra E) as [s1 X]. pose proof (SIM s q a W R Fa) as M. rewrite X in M |- *.
    rewrite (run_small_run _ _ _ _ _ E) in M. destruct M as [q2 [E2 [R1 W1]]].
    inversion E2; subst q2. eauto.
  - destruct (bsmall B q b) eqn:S; [|discriminate]. destruct F as [Fb [Fx Fy]], Rm as [Rb [Rx Ry]].
    destruct (beval_total o B ty s q b O W R Fb Rb S) as [v E]. rewrite E.
    rewrite (beval_sim _ _ _ _ _ _ O W R Fb E). destruct (bmeaning q b); eauto.
  - destruct (bsmall B q b) eqn:S; [|discriminate]. pose proof F as [Fb Fx]. pose proof Rm as [Rb Rx].
    destruct (beval_total o B ty s q b O W R Fb Rb S) as [v E]. rewrite E.
    rewrite (beval_sim _ _ _ _ _ _ O W R Fb E). destruct (bmeaning q b); [|eauto].
    destruct (run_small B fuel q x) as [q1|] eqn:E1; [|discriminate].
    destruct (IH s q x q1 O W R Fx Rx E1) as [s1 X]. pose proof (SIM s q x W R Fx) as M. rewrite X in M |- *.
    rewrite (run_small_run _ _ _ _ _ E1) in M. destruct M as [q2 [E2 [R1 W1]]].
    inversion E2; subst q2. eapply IH; eauto.
Qed.

Theorem exec_total : forall o B ty fuel s q c q', output_canonical o = true -> wf_store ty s -> represents s q ->
  wf_s ty c -> room_s B ty c -> run_small B fuel q c = Some q' ->
  exists s', exec (denote o) ty fuel s c = Some (Ok s') /\ represents s' q' /\ wf_store ty s'.
Proof.
  intros o B ty fuel s q c q' O W R F Rm H.
  destruct (exec_defined o B ty fuel s q c q' O W R F Rm H) as [s' E]. exists s'. split; auto.
  pose proof (exec_sim o ty fuel s q c O W R F) as M. rewrite E, (run_small_run _ _ _ _ _ H) in M.
  destruct M as [q2 [E2 M]]. inversion E2; subst. auto.
Qed.

(** ** The summation program *)

Lemma small_of : forall B v a b, same_value v (Some (a # b)) -> Z.abs a <= B -> Zpos b <= B -> small B v = true.
Proof.
  intros B v a b V A Bb. destruct v as [x|]; [|contradiction]. cbn in V. unfold small.
  rewrite (Qred_complete _ _ V). unfold Qred.
  pose proof (Z.ggcd_gcd a (Zpos b)) as G. pose proof (Z.ggcd_correct_divisors a (Zpos b)) as D.
  destruct (Z.ggcd a (Zpos b)) as [g [r1 r2]]. cbn [fst snd] in *. destruct D as [D1 D2].
  pose proof (Z.gcd_nonneg a (Zpos b)). rewrite <- G in H.
  assert (0 < g) by (destruct (Z.eq_dec g 0) as [E|]; [rewrite E in D2|]; lia). assert (0 < r2) by nia. cbn [Qnum Qden]. rewrite Z2Pos.id by lia.
  apply andb_true_intro. split; apply Z.leb_le; [|nia].
  assert (Z.abs a = g * Z.abs r1) by (rewrite D1, Z.abs_mul, (Z.abs_eq g); lia). nia.
Qed.

Lemma small_int : forall B v z, same_value v (Some (inject_Z z)) -> Z.abs z <= B -> 1 <= B -> small B v = true.
Proof. intros B v z V A B1. apply (small_of B v z 1); auto. Qed.

Lemma ratio_q : forall a b, 0 < b -> (inject_Z a / inject_Z b == a # Z.to_pos b)%Q.
Proof. intros a b H. rewrite Qmake_Qdiv, Z2Pos.id by lia. reflexivity. Qed.

Lemma small_ratio : forall B v a b, 0 < b -> same_value v (Some (inject_Z a / inject_Z b)%Q) ->
  Z.abs a <= B -> b <= B -> small B v = true.
Proof.
  intros B v a b P V A Bb. apply (small_of B v a (Z.to_pos b)); auto; [|rewrite Z2Pos.id; lia].
  destruct v; [|contradiction]. cbn in *. now rewrite V, ratio_q.
Qed.

Lemma inject_nz : forall z, z <> 0 -> ~ (inject_Z z == 0)%Q.
Proof. intros z H E. apply H. unfold Qeq in E; cbn in E. lia. Qed.

Lemma term_sum : forall k, 0 <= k ->
  (inject_Z k / inject_Z (k + 1) + inject_Z 1 / (inject_Z (k + 1) * inject_Z (k + 2)) == inject_Z (k + 1) / inject_Z (k + 2))%Q.
Proof.
  intros k K. assert (E1 : (inject_Z (k + 1) == inject_Z k + 1)%Q) by (rewrite inject_Z_plus; reflexivity).
  assert (E2 : (inject_Z (k + 2) == inject_Z k + 2)%Q) by (rewrite inject_Z_plus; reflexivity).
  pose proof (inject_nz (k + 1) ltac:(lia)) as N1. pose proof (inject_nz (k + 2) ltac:(lia)) as N2.
  rewrite E1 in N1 |- *. rewrite E2 in N2 |- *. change (inject_Z 1) with 1%Q. field. split; auto.
Qed.

Definition sum_at (N k : Z) (q : qstore) : Prop :=
  same_value (q 0%nat) (Some (inject_Z N)) /\ same_value (q 1%nat) (Some (inject_Z k))
  /\ same_value (q 2%nat) (Some (inject_Z k / inject_Z (k + 1))%Q).

Lemma body_step : forall B N k fuel q, 0 <= k -> (k + 1) * (k + 2) <= B -> sum_at N k q ->
  exists q', run_small B (S (S fuel)) q sum_body = Some q' /\ sum_at N (k + 1) q'.
Proof.
  intros B N k fuel q K Bd [Q0 [Q1 Q2]]. unfold sum_body. cbn [run_small].
  assert (K2 : k + 2 <= B) by nia. assert (K3 : 0 < (k + 1) * (k + 2)) by nia.
  assert (E1 : forall z, (inject_Z (z + 1) == inject_Z z + 1)%Q) by (intros; rewrite inject_Z_plus; reflexivity).
  set (v1 := exact_opt Plus (q 1%nat) (int_value (imeaning q (IConst int32 1)))).
  assert (V1 : same_value v1 (Some (inject_Z (k + 1)))).
  { unfold v1. rewrite Q1. cbn. now rewrite E1. }
  assert (S1 : small B (q 1%nat) && ismall B q (IConst int32 1) && small B v1 = true).
  { rewrite (small_int B (q 1%nat) k), (small_int B v1 (k + 1)) by (auto; lia). cbn. apply andb_true_intro. split; auto.
    apply Z.leb_le. lia. }
  rewrite S1. set (q1 := qwrite q 1 v1).
  set (e := EIntBin Divides (IConst int32 1) (EBin Multiplies (EVar 1) (EBinInt Plus (EVar 1) (IConst int32 1)))).
  assert (A1 : same_value (fmeaning q1 (EBinInt Plus (EVar 1) (IConst int32 1))) (Some (inject_Z (k + 2)))).
  { cbn. change (q1 1%nat) with v1. rewrite V1. cbn. replace (k + 2) with (k + 1 + 1) by lia. rewrite (E1 (k + 1)). reflexivity. }
  assert (A2 : same_value (fmeaning q1 (EBin Multiplies (EVar 1) (EBinInt Plus (EVar 1) (IConst int32 1))))
                 (Some (inject_Z ((k + 1) * (k + 2))))).
  { change (same_value (exact_opt Multiplies v1 (fmeaning q1 (EBinInt Plus (EVar 1) (IConst int32 1))))
      (Some (inject_Z ((k + 1) * (k + 2))))). rewrite V1, A1. cbn. now rewrite inject_Z_mult. }
  assert (A3 : same_value (fmeaning q1 e) (Some (inject_Z 1 / inject_Z ((k + 1) * (k + 2)))%Q)).
  { change (same_value (exact_opt Divides (Some (inject_Z 1)) (fmeaning q1 (EBin Multiplies (EVar 1) (EBinInt Plus (EVar 1) (IConst int32 1)))))
      (Some (inject_Z 1 / inject_Z ((k + 1) * (k + 2)))%Q)). rewrite A2. cbn.
    destruct (Qeq_bool (inject_Z ((k + 1) * (k + 2))) 0) eqn:Z0.
    - apply Qeq_bool_iff in Z0. now apply inject_nz in Z0; [|lia].
    - reflexivity. }
  set (v2 := exact_opt Plus (q1 2%nat) (fmeaning q1 e)).
  assert (V2 : same_value v2 (Some (inject_Z (k + 1) / inject_Z (k + 2))%Q)).
  { unfold v2. rewrite A3. change (q1 2%nat) with (q 2%nat). rewrite Q2. cbn.
    rewrite inject_Z_mult. now apply term_sum. }
  assert (S2 : small B (q1 2%nat) && fsmall B q1 e && small B v2 = true).
  { rewrite (small_ratio B v2 (k + 1) (k + 2)) by (auto; lia).
    rewrite (small_ratio B (q1 2%nat) k (k + 1)) by (auto; lia).
    rewrite andb_true_r, andb_true_l. unfold e. cbn [fsmall].
    fold e. rewrite (small_ratio B (fmeaning q1 e) 1 ((k + 1) * (k + 2))) by (auto; lia).
    rewrite (small_int B _ _ A2) by lia. rewrite (small_int B _ _ A1) by lia.
    assert (small B (fmeaning q1 (EVar 1)) = true) as -> by (apply (small_int B _ (k + 1)); auto; lia).
    cbn. rewrite ?andb_true_r. apply andb_true_intro. split; apply Z.leb_le; lia. }
  rewrite S2. eexists. split; [reflexivity|]. split; [exact Q0|]. split; [exact V1|].
  cbn. replace (k + 1 + 1) with (k + 2) by lia. exact V2.
Qed.

Lemma cond_value : forall N k q, sum_at N k q -> bmeaning q (BCmp Lt (EVar 1) (EVar 0)) = (k <? N).
Proof.
  intros N k q [Q0 [Q1 _]]. cbn [bmeaning fmeaning]. rewrite Q0, Q1. cbn.
  destruct (Qle_bool (inject_Z N) (inject_Z k)) eqn:E.
  - apply Qle_bool_iff in E. rewrite <- Zle_Qle in E. symmetry. apply Z.ltb_ge. lia.
  - symmetry. apply Z.ltb_lt. destruct (Z_lt_le_dec k N); auto. exfalso.
    rewrite Zle_Qle in l. apply Qle_bool_iff in l. congruence.
Qed.

Lemma loop_runs : forall B N j k fuel q, Z.of_nat j = N - k -> 0 <= k -> (N + 1) * (N + 2) <= B -> sum_at N k q ->
  exists q', run_small B (S (S (S fuel)) + j) q sum_loop = Some q' /\ sum_at N N q'.
Proof.
  intros B N j. induction j as [|j IH]; intros k fuel q J K Bd H; assert (K2 : N + 2 <= B) by nia.
  - assert (k = N) by lia. subst k. exists q. split; auto. cbn [plus run_small].
    assert (S0 : bsmall B q (BCmp Lt (EVar 1) (EVar 0)) = true).
    { cbn. destruct H as [Q0 [Q1 _]]. rewrite (small_int B _ _ Q0), (small_int B _ _ Q1) by lia. reflexivity. }
    unfold sum_loop. rewrite S0, (cond_value _ _ _ H), Z.ltb_irrefl. reflexivity.
  - destruct (body_step B N k (S fuel + j) q K) as [q1 [E1 H1]]; [nia|exact H|].
    destruct (IH (k + 1) fuel q1) as [q' [E' H']]; auto; [lia|lia|].
    exists q'. split; auto.
    replace (S (S (S fuel)) + S j)%nat with (S (S (S (S fuel)) + j)) by lia.
    unfold sum_loop at 1. cbn [run_small].
    assert (S0 : bsmall B q (BCmp Lt (EVar 1) (EVar 0)) = true).
    { cbn. destruct H as [Q0 [Q1 _]]. rewrite (small_int B _ _ Q0), (small_int B _ _ Q1) by lia. reflexivity. }
    rewrite S0, (cond_value _ _ _ H). replace (k <? N) with true by (symmetry; apply Z.ltb_lt; lia).
    cbn [plus] in E1, E' |- *. rewrite E1. exact E'.
Qed.

Lemma sum_runs : forall B N q fuel, 0 <= N -> (N + 1) * (N + 2) <= B -> same_value (q 0%nat) (Some (inject_Z N)) ->
  exists q', run_small B (fuel + (5 + Z.to_nat N)) q sum_program = Some q' /\ same_value (q' 2%nat) (Some (inject_Z N / inject_Z (N + 1))%Q).
Proof.
  intros B N q fuel P Bd Q0.
  set (q1 := qwrite (qwrite q 1 (Some (inject_Z 0))) 2 (Some (inject_Z 0))).
  destruct (loop_runs B N (Z.to_nat N) 0 fuel q1) as [q' [E H]]; auto; try lia.
  - split; [exact Q0|]. split; [reflexivity|]. cbn. reflexivity.
  - exists q'. split; [|apply H].
    replace (fuel + (5 + Z.to_nat N))%nat with (S (S (S (S (S fuel)) + Z.to_nat N))) by lia.
    unfold sum_program. cbn [run_small plus].
    assert (S0 : forall q, fsmall B q (EOfInt (IConst int32 0)) = true).
    { intros q0. cbn. rewrite ?andb_true_r. destruct (0 <=? B) eqn:B0, (1 <=? B) eqn:B1; auto; exfalso; nia. }
    rewrite !S0. cbn [plus] in E. exact E.
Qed.

Lemma common_le : forall a b t, rsigned a = true -> rsigned b = true -> rbits a <= rbits t -> rbits b <= rbits t ->
  rbits (common_rep a b) <= rbits t.
Proof. intros a b t A B. unfold common_rep. rewrite A, B. cbn. destruct (rbits a <? rbits b); auto. Qed.

Lemma room_wide : forall B s t, signed_rep s -> signed_rep t -> rbits s <= rbits t -> room B s -> room B t.
Proof.
  intros B s t [W S] [W' S'] H R. unfold room in *. destruct (range_le_same s t) as [_ M]; [congruence| |lia].
  unfold wf_rep in W. lia.
Qed.

Lemma sum_static : forall B t, signed_rep t -> room B t ->
  wf_s (fun _ => t) sum_program /\ room_s B (fun _ => t) sum_program.
Proof.
  intros B t T Rm. assert (I : signed_rep int32) by (split; [unfold wf_rep; cbn; lia|reflexivity]).
  assert (B32 : rbits int32 <= rbits t) by (destruct T as [T _]; unfold wf_rep in T; cbn; lia).
  destruct (common_signed t int32 T I) as [T1 [L1 _]].
  destruct (common_signed t (common_rep t int32) T T1) as [T2 [L2 _]].
  destruct (common_signed int32 (common_rep t (common_rep t int32)) I T2) as [T3 [_ L3]].
  assert (U1 : rbits (common_rep t int32) <= rbits t) by (apply common_le; auto; try apply T; lia).
  assert (U2 : rbits (common_rep t (common_rep t int32)) <= rbits t)
    by (apply common_le; auto; try apply T; try apply T1; lia).
  assert (U3 : rbits (common_rep int32 (common_rep t (common_rep t int32))) <= rbits t)
    by (apply common_le; auto; apply T2).
  assert (C : forall z, Z.abs z <= 1 -> in_rep int32 z = true).
  { intros z Z. apply in_rep_iff. cbn. lia. }
  split; cbn; repeat split; auto; try lia; try apply I; try (apply C; lia).
  all: try exact U3; try exact B32.
  all: try (apply (room_wide B t); auto; lia).
  rewrite common_self. exact Rm.
Qed.

Theorem sum_correct : forall o t N s, output_canonical o = true -> signed_rep t -> 0 <= N ->
  2 * ((N + 1) * (N + 2)) * ((N + 1) * (N + 2)) <= rmax t ->
  wf_store (fun _ => t) s -> s 0%nat = mkRaw N 1 ->
  exists n s', exec (denote o) (fun _ => t) n s sum_program = Some (Ok s') /\ s' 2%nat = mkRaw N (N + 1).
Proof.
  intros o t N s O T P Bd W S0.
  assert (R : represents s (fun y => value (s y))) by (intros y; reflexivity).
  destruct (sum_runs ((N + 1) * (N + 2)) N (fun y => value (s y)) 0 P (Z.le_refl _)) as [q' [E V]].
  { rewrite S0. now apply int_low. }
  destruct (sum_static ((N + 1) * (N + 2)) t T Bd) as [F Rm].
  destruct (exec_total o _ _ _ _ _ _ _ O W R F Rm E) as [s' [X [R' W']]].
  exists (0 + (5 + Z.to_nat N))%nat, s'. split; auto.
  apply canonical_unique; [apply W'| |].
  - right. cbn. split; [lia|]. rewrite Z.gcd_comm. replace (N + 1) with (1 + 1 * N) by lia.
    rewrite Z.gcd_comm, Z.gcd_add_mult_diag_r. apply Z.gcd_1_r.
  - rewrite (R' 2%nat), V, value_defined by (cbn; lia). reflexivity.
Qed.

