(** Client programs with small values under policies that reduce their inputs. *)

From Coq Require Import ZArith QArith Qabs Bool Lia.
From Verif Require Import Machine Raw Ops Spec Fraction Fmath Mixed_spec Program Program_spec Program2_spec Fraction_spec.
From Verif Require Import Machine_proofs Value_proofs Ops_proofs Total_proofs Cmp_proofs Order_proofs Algebra_proofs
  Qtrunc_proofs Laws_proofs Fraction_proofs Fmath_proofs Mixed_proofs Program_proofs Program2_proofs Program3_proofs.
Open Scope Z_scope.

(** ** Reducing a small value gives small parts *)

Lemma reduced_small : forall m v r q B, reduces_to m v r -> same_value (value v) q -> small B q = true ->
  raw_bounded B r.
Proof.
  intros m v r q B R V S. destruct q as [x|]; [|discriminate].
  assert (V' : same_value (value r) (Some x)) by (rewrite <- V; eapply reduces_same_value; eauto).
  destruct R as [[D ->]|[D [g [G [N1 [D1 [C [P _]]]]]]]]; [contradiction V'|].
  cbn in S. apply andb_prop in S as [S1 S2].
  assert (Dr : den r <> 0) by (intros E; rewrite E in D1; lia).
  assert (K : exists c, canonical c /\ same_value (value c) (Some x) /\
    Z.abs (num c) = Z.abs (num r) /\ Z.abs (den c) = Z.abs (den r)).
  { destruct (Z_lt_le_dec 0 (den r)).
    - exists r. split; [right; auto|]. auto.
    - exists (mkRaw (- num r) (- den r)). split; [right; cbn; split; [lia|now rewrite Z.gcd_opp_l, Z.gcd_opp_r]|].
      split; [|cbn; lia]. rewrite <- V'. rewrite !value_defined by (cbn; lia). cbn.
      rewrite !inject_Z_opp. field. intros E. apply (iz_nz (den r)) in Dr. contradiction. }
  destruct K as [c [Cc [Vc [Nc Dc]]]]. destruct (canonical_parts _ _ Cc Vc) as [Pn Pd].
  unfold raw_bounded. lia.
Qed.

Definition sides_small (B : Z) (a : args) : Prop :=
  match a with
  | RR x y => small B (value x) = true /\ small B (value y) = true
  | RI x z => small B (value x) = true /\ Z.abs z <= B
  | IR z y => Z.abs z <= B /\ small B (value y) = true
  end.

Lemma reduce_args_small : forall t a m B M, wf_rep t -> wf_args t a -> args_bounded M a -> M <= rmax t ->
  sides_small B a -> exists b, reduce_args t a m = Ok b /\ wf_args t b /\ args_reduce m a b /\ args_bounded B b.
Proof.
  intros t a m B M W A Bd Rm S. destruct (reduce_args_total t a m M W A Bd Rm) as [b [E _]].
  exists b. split; auto. apply reduce_args_spec in E as [A' R]; auto. split; auto. split; auto.
  destruct a, b; cbn in R, S |- *; try contradiction; destruct R, S; subst; split;
    try (eapply reduced_small; [eassumption|reflexivity|eassumption]); auto.
Qed.

Lemma small_arith_total : forall o t op a B ql qr q, signed_rep t -> reduces_inputs o = true -> room B t ->
  wf_args t a -> args_bounded (rmax t) a -> sides_small B a ->
  same_value (left_value a) (Some ql) -> same_value (right_value a) (Some qr) ->
  exact op ql qr = Some q -> exists r, p_arith (denote o) t op a = Ok r /\ raw_bounded (2 * B * B) r.
Proof.
  induction o as [| |o IH m|o IH m]; intros t op a B ql qr q [W S] O Rm A Bd Sm L R X; cbn in O; try discriminate;
    cbn [denote].
  - destruct (reduce_args_small t a m B (rmax t) W A Bd ltac:(lia) Sm) as [b [E [A' [Rd Bb]]]].
    rewrite ri_arith_eq, E. cbn [bind].
    destruct (total_step o t op b B ql qr q) as [r [H [_ [H' _]]]]; eauto.
    + rewrite (args_reduce_left _ _ _ Rd). exact L.
    + rewrite (args_reduce_right _ _ _ Rd). exact R.
  - destruct (IH t op a B ql qr q) as [r [H Br]]; auto; [split; auto|].
    rewrite ro_arith_eq, H. cbn [bind].
    assert (Wr : wf_raw t r) by (eapply arith_wf; eauto).
    unfold room in Rm. destruct Br as [B1 B2].
    destruct (reduce_total t r m W Wr) as [r' E]; try lia. exists r'. split; auto.
    apply reduce_spec in E as [_ [Rd _]]; auto. pose proof (reduces_bound _ _ _ Rd). split; lia.
Qed.

Lemma order_domain_reduce : forall o m a b, defined_args a -> args_reduce m a b ->
  order_domain (ReducedInput o m) a -> order_domain o b.
Proof.
  intros o m a b D R [N|[P|M]].
  - cbn in N. destruct m; [|left; exact N]. apply order_domain_positive. eapply args_reduce_normal; eauto.
  - apply order_domain_positive. destruct m; [eapply args_reduce_normal; eauto|eapply args_reduce_positive; eauto].
  - destruct a as [x y|x z|z y]; try contradiction. destruct M as [M|M].
    + destruct b; try contradiction. right; right. left. exact M.
    + destruct m; [apply order_domain_positive; eapply args_reduce_normal; eauto|].
      destruct (args_reduce_same_sign _ _ _ R M) as [x' [y' [-> M']]]. right; right; right. exact M'.
Qed.

Lemma small_cmp_total : forall o t op a B, signed_rep t -> reduces_inputs o = true -> room B t ->
  wf_args t a -> args_bounded (rmax t) a -> sides_small B a -> defined_args a ->
  (is_order op = true -> order_domain o a) -> exists b, p_cmp (denote o) t op a = Ok b.
Proof.
  induction o as [| |o IH m|o IH m]; intros t op a B [W S] O Rm A Bd Sm D C; cbn in O; try discriminate;
    cbn [denote].
  - destruct (reduce_args_small t a m B (rmax t) W A Bd ltac:(lia) Sm) as [b [E [A' [Rd Bb]]]].
    rewrite ri_cmp_eq, E. cbn [bind]. pose proof (room_le _ _ W Rm) as [B1 B2].
    eexists. eapply denote_cmp_total; eauto.
    destruct op; cbn in C |- *; auto; right; eapply order_domain_reduce; eauto.
  - rewrite ro_cmp_eq. eapply IH; eauto. split; auto.
Qed.

(** ** Integers *)

Definition bounded_store (ty : nat -> rep) (s : store) : Prop := forall x, raw_bounded (rmax (ty x)) (s x).

Lemma quot_abs_le : forall n d, Z.abs (Z.quot n d) <= Z.abs n.
Proof.
  intros n d. destruct (Z.eq_dec d 0) as [->|D]; [rewrite Zquot.Zquot_0_r; cbn; lia|].
  rewrite <- Z.quot_abs by auto. apply Z.quot_le_upper_bound; nia.
Qed.

Lemma ieval_small : forall pos B ty s q i, any_store pos ty s -> represents s q -> no_least_store ty s ->
  opaque_i i -> ismall B q i = true ->
  exists z, ieval ty s i = Ok z /\ Z.abs z <= B /\ (no_least_i i -> Z.abs z <= rmax (itype ty i)).
Proof.
  intros pos B ty s q i W R N F S.
  assert (T : exists z, ieval ty s i = Ok z /\ (no_least_i i -> Z.abs z <= rmax (itype ty i))).
  { destruct i as [t z|x|x|x]; cbn in *; try contradiction; eauto.
    destruct (N x) as [N1 N2]. destruct (W x) as [[Wx Sx] [Ax _]].
    assert (T : exists k, f_trunc (ty x) (s x) = Ok k).
    { apply f_trunc_defined; auto. split.
      - unfold ismall in S. cbn in S. specialize (R x). destruct (q x); [|discriminate].
        intros D. apply value_none_iff in D. now rewrite D in R.
      - intros [_ [E _]]. rewrite E in N1. unfold rmin, rmax in *. rewrite Sx in *. lia. }
    destruct T as [k K]. exists k. split; auto. intros _. apply f_trunc_ok in K as [_ ->]; auto.
    pose proof (quot_abs_le (num (s x)) (den (s x))). lia. }
  destruct T as [z [E T]]. exists z. split; auto. split; auto.
  destruct (ieval_any _ _ _ _ _ _ W R F E) as [_ M]. unfold ismall in S. rewrite M in S. lia.
Qed.

Lemma small_proper : forall B x y, same_value x y -> small B y = true -> small B x = true.
Proof.
  intros B [x|] [y|] V S; cbn in V; try contradiction; try discriminate. unfold small in *.
  now rewrite (Qred_complete _ _ V).
Qed.

Lemma small_not_none : forall B q v, same_value v q -> small B q = true -> v <> None.
Proof. intros B [q|] v V S; [|discriminate]. intros ->. exact V. Qed.

Lemma rmax_width : forall s t, signed_rep s -> signed_rep t -> rbits s <= rbits t -> rmax s <= rmax t.
Proof.
  intros s t [Ws Ss] [Wt St] B. unfold rmax. rewrite Ss, St.
  unfold wf_rep in *. assert (2 ^ (rbits s - 1) <= 2 ^ (rbits t - 1)) by (apply Z.pow_le_mono_r; lia). lia.
Qed.

(** ** Expressions *)

Lemma feval_small : forall o pos B ty s q e, reduces_inputs o = true -> any_store pos ty s -> represents s q ->
  no_least_store ty s -> suits_f o pos ty e -> no_least_f e -> room_f B ty e -> fsmall B q e = true ->
  exists v, feval (denote o) ty s e = Ok v /\ raw_bounded (rmax (ftype ty e)) v.
Proof.
  intros o pos B ty s q e O W R N.
  assert (K : forall e v, suits_f o pos ty e -> fsmall B q e = true -> feval (denote o) ty s e = Ok v ->
    holds pos (ftype ty e) v (fmeaning q e) /\ small B (value v) = true /\ value v <> None).
  { intros e0 v F S H. pose proof (feval_any _ _ _ _ _ _ _ W R F H) as L. apply fsmall_small in S.
    split; auto. destruct L as [_ [_ V]].
    split; [eapply small_proper; eauto|eapply small_not_none; eauto]. }
  assert (X : forall e, fsmall B q e = true -> exists x, fmeaning q e = Some x).
  { intros e0 S. apply fsmall_small, small_some in S as [x ->]. eauto. }
  induction e as [x|t r|i|e IH|e IH|e IH|e IH|op l IHl r IHr|op l IHl i|op i r IHr]; intros F NL Rm S;
    pose proof (X _ S) as D; pose proof S as S'; cbn [fsmall] in S; apply andb_prop in S as [_ S];
    cbn in F, NL, Rm |- *.
  - eexists; split; [reflexivity|]. apply N.
  - eexists; split; [reflexivity|]. exact NL.
  - destruct (ieval_small _ _ _ _ _ _ W R N F S) as [z [-> [_ Z]]]. cbn. eexists; split; [reflexivity|].
    pose proof (itype_any _ _ _ _ W F) as [Wi _]. pose proof (rmax_big _ Wi). split; cbn; [auto|lia].
  - destruct (IH F NL Rm S) as [v [-> Bv]]. cbn. eauto.
  - destruct Rm as [R1 Rm]. destruct (IH F NL Rm S) as [v [E Bv]]. rewrite E. cbn. destruct (K _ _ F S E) as [[A _] _].
    pose proof (ftype_any _ _ _ _ _ W F) as [S1 S2].
    destruct (negate_bounded o _ v _ S1 S2 A Bv) as [r [H [_ Br]]]; [lia|eauto].
  - destruct Rm as [R1 Rm]. destruct (IH F NL Rm S) as [v [E Bv]]. rewrite E. cbn. destruct (K _ _ F S E) as [[A _] _].
    pose proof (ftype_any _ _ _ _ _ W F) as [S1 S2].
    unfold f_abs. destruct (is_non_negative v); [eauto|].
    destruct (negate_bounded o _ v _ S1 S2 A Bv) as [r [H [_ Br]]]; [lia|eauto].
  - destruct Rm as [R1 Rm]. destruct (IH F NL Rm S) as [v [E Bv]]. rewrite E. cbn [bind]. destruct (K _ _ F S E) as [[A _] _].
    pose proof (ftype_any _ _ _ _ _ W F) as [S1 S2]. destruct Bv as [B1 B2].
    destruct (reduce_total _ _ normalize_signs_mode S1 A B1 B2) as [r H]. exists r. split; auto.
    apply reduce_spec in H as [_ [Rd _]]; auto. pose proof (reduces_bound _ _ _ Rd). split; lia.
  - apply andb_prop in S as [Sl Sr]. destruct F as [_ [Fl Fr]], Rm as [Rc [Rl Rr]], NL as [Nl Nr].
    destruct (IHl Fl Nl Rl Sl) as [x [Ex Bx]], (IHr Fr Nr Rr Sr) as [y [Ey By]]. rewrite Ex, Ey. cbn [bind].
    destruct (K _ _ Fl Sl Ex) as [Lx [Sx Nx]], (K _ _ Fr Sr Ey) as [Ly [Sy Ny]].
    pose proof (ftype_any _ _ _ _ _ W Fl) as Tl. pose proof (ftype_any _ _ _ _ _ W Fr) as Tr.
    destruct (common_signed _ _ Tl Tr) as [Tc [Bl Br]].
    destruct (conv_any _ _ _ _ _ Tl Tc Bl Lx) as [El [Al [Cl Vl]]].
    destruct (conv_any _ _ _ _ _ Tr Tc Br Ly) as [Er [Ar [Cr Vr]]].
    unfold f_arith, common_args. rewrite El, Er.
    destruct (X _ Sl) as [ql Ql], (X _ Sr) as [qr Qr]. destruct D as [d D]. cbn in D.
    rewrite Ql in *. rewrite Qr in *. cbn in D.
    pose proof (rmax_width _ _ Tl Tc Bl). pose proof (rmax_width _ _ Tr Tc Br). unfold raw_bounded in *.
    destruct (small_arith_total o (common_rep (ftype ty l) (ftype ty r)) op (RR x y) B ql qr d) as [v [H1 [H2 H3]]];
      auto; try (split; assumption); [cbn; unfold raw_bounded; lia|].
    exists v. split; auto. unfold room in Rc. lia.
  - apply andb_prop in S as [Sl Si]. destruct F as [_ [Fl Fi]], Rm as [Rc Rl].
    destruct (IHl Fl NL Rl Sl) as [x [Ex Bx]], (ieval_small _ _ _ _ _ _ W R N Fi Si) as [z [Ez [Bz _]]]. rewrite Ex, Ez. cbn [bind].
    destruct (K _ _ Fl Sl Ex) as [Lx [Sx Nx]]. destruct (ieval_any _ _ _ _ _ _ W R Fi Ez) as [Ai Mi].
    pose proof (ftype_any _ _ _ _ _ W Fl) as Tl. pose proof (itype_any _ _ _ _ W Fi) as Tr.
    destruct (common_signed _ _ Tl Tr) as [Tc [Bl Br]].
    destruct (conv_any _ _ _ _ _ Tl Tc Bl Lx) as [El [Al [Cl Vl]]].
    destruct (int_any _ _ _ _ _ _ W Fi Tc Ai Br) as [Er Ar].
    unfold f_arith, common_args. rewrite El, Er.
    destruct (X _ Sl) as [ql Ql]. destruct D as [d D]. cbn in D. rewrite Mi in D.
    rewrite Ql in *. cbn in D. pose proof (room_le _ _ (proj1 Tc) Rc) as [M1 M2].
    pose proof (rmax_width _ _ Tl Tc Bl). unfold raw_bounded in *.
    destruct (small_arith_total o (common_rep (ftype ty l) (itype ty i)) op (RI x z) B ql (inject_Z z) d) as [v [H1 [H2 H3]]];
      auto; try (split; assumption); try reflexivity; [cbn; unfold raw_bounded; lia|].
    exists v. split; auto. unfold room in Rc. lia.
  - apply andb_prop in S as [Si Sr]. destruct F as [_ [Fi Fr]], Rm as [Rc Rr].
    destruct (IHr Fr NL Rr Sr) as [x [Ex Bx]], (ieval_small _ _ _ _ _ _ W R N Fi Si) as [z [Ez [Bz _]]]. rewrite Ex, Ez. cbn [bind].
    destruct (K _ _ Fr Sr Ex) as [Lx [Sx Nx]]. destruct (ieval_any _ _ _ _ _ _ W R Fi Ez) as [Ai Mi].
    pose proof (ftype_any _ _ _ _ _ W Fr) as Tr. pose proof (itype_any _ _ _ _ W Fi) as Tl.
    destruct (common_signed _ _ Tl Tr) as [Tc [Bl Br]].
    destruct (conv_any _ _ _ _ _ Tr Tc Br Lx) as [Er [Ar [Cr Vr]]].
    destruct (int_any _ _ _ _ _ _ W Fi Tc Ai Bl) as [El Al].
    unfold f_arith, common_args. rewrite El, Er.
    destruct (X _ Sr) as [qr Qr]. destruct D as [d D]. cbn in D. rewrite Mi in D.
    rewrite Qr in *. cbn in D. pose proof (room_le _ _ (proj1 Tc) Rc) as [M1 M2].
    pose proof (rmax_width _ _ Tr Tc Br). unfold raw_bounded in *.
    destruct (small_arith_total o (common_rep (itype ty i) (ftype ty r)) op (IR z x) B (inject_Z z) qr d) as [v [H1 [H2 H3]]];
      auto; try (split; assumption); try reflexivity; [cbn; unfold raw_bounded; lia|].
    exists v. split; auto. unfold room in Rc. lia.
Qed.

(** ** Conditions *)

Lemma beval_small : forall o pos B ty s q b, reduces_inputs o = true -> any_store pos ty s -> represents s q ->
  no_least_store ty s -> suits_b o pos ty b -> no_least_b b -> room_b B ty b -> bsmall B q b = true ->
  exists v, beval (denote o) ty s b = Ok v.
Proof.
  intros o pos B ty s q b O W R N.
  assert (K : forall e, suits_f o pos ty e -> no_least_f e -> room_f B ty e -> fsmall B q e = true ->
    exists v, feval (denote o) ty s e = Ok v /\ raw_bounded (rmax (ftype ty e)) v /\
    holds pos (ftype ty e) v (fmeaning q e) /\ small B (value v) = true /\ value v <> None).
  { intros e F NL Rm S. destruct (feval_small o pos B ty s q e O W R N F NL Rm S) as [v [H Bv]].
    exists v. split; auto. split; auto.
    pose proof (feval_any _ _ _ _ _ _ _ W R F H) as L. apply fsmall_small in S.
    split; auto. destruct L as [_ [_ V]].
    split; [eapply small_proper; eauto|eapply small_not_none; eauto]. }
  induction b as [op l r|op l i|op i r|b IH|a IHa b IHb|a IHa b IHb]; intros F NL Rm S; cbn in F, NL, Rm, S |- *.
  - apply andb_prop in S as [Sl Sr]. destruct F as [Fo [Fl Fr]], Rm as [Rc [Rl Rr]], NL as [Nl Nr].
    destruct (K _ Fl Nl Rl Sl) as [x [Ex [Bx [Lx [Sx Nx]]]]], (K _ Fr Nr Rr Sr) as [y [Ey [By [Ly [Sy Ny]]]]].
    rewrite Ex, Ey. cbn [bind].
    pose proof (ftype_any _ _ _ _ _ W Fl) as Tl. pose proof (ftype_any _ _ _ _ _ W Fr) as Tr.
    destruct (common_signed _ _ Tl Tr) as [Tc [Bl Br]].
    destruct (conv_any _ _ _ _ _ Tl Tc Bl Lx) as [El [Al [Cl Vl]]].
    destruct (conv_any _ _ _ _ _ Tr Tc Br Ly) as [Er [Ar [Cr Vr]]].
    unfold f_cmp, common_args. rewrite El, Er.
    pose proof (rmax_width _ _ Tl Tc Bl). pose proof (rmax_width _ _ Tr Tc Br). unfold raw_bounded in *.
    eapply small_cmp_total; eauto; try (split; assumption); [cbn; unfold raw_bounded; lia|eapply cmp_domain; eauto].
  - apply andb_prop in S as [Sl Si]. destruct F as [Fo [Fl Fi]], Rm as [Rc Rl].
    destruct (K _ Fl NL Rl Sl) as [x [Ex [Bx [Lx [Sx Nx]]]]], (ieval_small _ _ _ _ _ _ W R N Fi Si) as [z [Ez [Bz _]]].
    rewrite Ex, Ez. cbn [bind]. destruct (ieval_any _ _ _ _ _ _ W R Fi Ez) as [Ai Mi].
    pose proof (ftype_any _ _ _ _ _ W Fl) as Tl. pose proof (itype_any _ _ _ _ W Fi) as Tr.
    destruct (common_signed _ _ Tl Tr) as [Tc [Bl Br]].
    destruct (conv_any _ _ _ _ _ Tl Tc Bl Lx) as [El [Al [Cl Vl]]].
    destruct (int_any _ _ _ _ _ _ W Fi Tc Ai Br) as [Er Ar].
    unfold f_cmp, common_args. rewrite El, Er. pose proof (room_le _ _ (proj1 Tc) Rc) as [M1 M2].
    pose proof (rmax_width _ _ Tl Tc Bl). unfold raw_bounded in *.
    eapply small_cmp_total; eauto; try (split; assumption);
      [cbn; unfold raw_bounded; lia|split; auto; discriminate|eapply cmp_domain_ri; eauto].
  - apply andb_prop in S as [Si Sr]. destruct F as [Fo [Fi Fr]], Rm as [Rc Rr].
    destruct (K _ Fr NL Rr Sr) as [x [Ex [Bx [Lx [Sx Nx]]]]], (ieval_small _ _ _ _ _ _ W R N Fi Si) as [z [Ez [Bz _]]].
    rewrite Ex, Ez. cbn [bind]. destruct (ieval_any _ _ _ _ _ _ W R Fi Ez) as [Ai Mi].
    pose proof (ftype_any _ _ _ _ _ W Fr) as Tr. pose proof (itype_any _ _ _ _ W Fi) as Tl.
    destruct (common_signed _ _ Tl Tr) as [Tc [Bl Br]].
    destruct (conv_any _ _ _ _ _ Tr Tc Br Lx) as [Er [Ar [Cr Vr]]].
    destruct (int_any _ _ _ _ _ _ W Fi Tc Ai Bl) as [El Al].
    unfold f_cmp, common_args. rewrite El, Er. pose proof (room_le _ _ (proj1 Tc) Rc) as [M1 M2].
    pose proof (rmax_width _ _ Tr Tc Br). unfold raw_bounded in *.
    eapply small_cmp_total; eauto; try (split; assumption);
      [cbn; unfold raw_bounded; lia|split; auto; discriminate|eapply cmp_domain_ir; eauto].
  - destruct (IH F NL Rm S) as [v ->]. cbn. eauto.
  - apply andb_prop in S as [Sa Sb]. destruct F as [Fa Fb], Rm as [Ra Rb], NL as [Na Nb].
    destruct (IHa Fa Na Ra Sa) as [v E]. rewrite E. cbn [bind].
    rewrite (beval_any _ _ _ _ _ _ _ W R Fa E). destruct (bmeaning q a); eauto.
  - apply andb_prop in S as [Sa Sb]. destruct F as [Fa Fb], Rm as [Ra Rb], NL as [Na Nb].
    destruct (IHa Fa Na Ra Sa) as [v E]. rewrite E. cbn [bind].
    rewrite (beval_any _ _ _ _ _ _ _ W R Fa E). destruct (bmeaning q a); eauto.
Qed.

(** ** Statements *)

Lemma no_least_write : forall ty s x v, no_least_store ty s -> raw_bounded (rmax (ty x)) v ->
  no_least_store ty (write s x v).
Proof.
  intros ty s x v N B y. unfold write. destruct (Nat.eqb y x) eqn:E; [|apply N].
  apply Nat.eqb_eq in E. subst. exact B.
Qed.

Lemma exec_small_defined : forall o pos B ty fuel s q c q', reduces_inputs o = true -> any_store pos ty s ->
  represents s q -> no_least_store ty s -> suits o pos ty c -> no_least_s c -> room_s B ty c ->
  run_small B fuel q c = Some q' ->
  exists s', exec (denote o) ty fuel s c = Some (Ok s') /\ no_least_store ty s'.
Proof.
  intros o pos B ty fuel. induction fuel as [|fuel IH]; intros s q c q' O W R N F NL Rm H; [discriminate|].
  assert (SIM : forall s1 q1 c1, any_store pos ty s1 -> represents s1 q1 -> suits o pos ty c1 ->
    any_matches pos ty (exec (denote o) ty fuel s1 c1) (run fuel q1 c1)) by (intros; now apply exec_any).
  destruct c as [|x e|op x e|op x i|a b|b x y|b x]; cbn [exec run_small] in H |- *; cbn in F, NL, Rm.
  - eauto.
  - destruct (fsmall B q e) eqn:S; [|discriminate]. destruct F as [F B0].
    destruct (feval_small o pos B ty s q e O W R N F NL Rm S) as [v [E Bv]]. rewrite E. cbn.
    eexists; split; [reflexivity|]. apply no_least_write; auto.
    pose proof (feval_any _ _ _ _ _ _ _ W R F E) as L. pose proof (ftype_any _ _ _ _ _ W F) as T.
    destruct (conv_any _ _ _ _ _ T (proj1 (W x)) B0 L) as [Ec _]. unfold f_convert. rewrite Ec.
    pose proof (rmax_width _ _ T (proj1 (W x)) B0). unfold raw_bounded in *. lia.
  - destruct (_ && _) eqn:S; [|discriminate]. apply andb_prop in S as [S Sv]. apply andb_prop in S as [Sx Se].
    destruct F as [Fo [F B0]], Rm as [Rx Re].
    destruct (feval_small o pos B ty s q e O W R N F NL Re Se) as [v [E Bv]]. rewrite E. cbn [bind].
    pose proof (feval_any _ _ _ _ _ _ _ W R F E) as L. destruct (W x) as [Tx [Ax Cx]].
    pose proof (fsmall_small _ _ _ Se) as Se'.
    pose proof (ftype_any _ _ _ _ _ W F) as T.
    destruct (conv_any _ _ _ _ _ T Tx B0 L) as [Ec [A [C V]]].
    cbn [f_assign]. rewrite Ec, f_arith_self.
    destruct (small_some _ _ Sx) as [qx Qx], (small_some _ _ Se') as [qe Qe], (small_some _ _ Sv) as [qv Qv].
    pose proof (R x) as Vx. rewrite Qx in *. rewrite Qe in *. cbn in Qv.
    pose proof (rmax_width _ _ T Tx B0). pose proof (N x) as [N1 N2]. unfold raw_bounded in *.
    destruct (small_arith_total o (ty x) op (RR (s x) v) B qx qe qv) as [r [-> [Br1 Br2]]]; auto.
    + split; auto.
    + cbn. unfold raw_bounded. lia.
    + split; [eapply small_proper; eauto|eapply small_proper; eauto].
    + cbn. eexists; split; [reflexivity|]. apply no_least_write; auto. unfold raw_bounded, room in *. lia.
  - destruct (_ && _) eqn:S; [|discriminate]. apply andb_prop in S as [S Sv]. apply andb_prop in S as [Sx Si].
    destruct F as [Fo [F B0]].
    destruct (ieval_small _ _ _ _ _ _ W R N F Si) as [z [Ez [Bz _]]]. rewrite Ez. cbn [bind].
    destruct (ieval_any _ _ _ _ _ _ W R F Ez) as [Ai Mi]. destruct (W x) as [Tx [Ax Cx]].
    destruct (int_any _ _ _ _ _ _ W F Tx Ai B0) as [Ec A'].
    cbn [f_assign]. rewrite Ec, f_arith_self. rewrite Mi in Sv.
    destruct (small_some _ _ Sx) as [qx Qx], (small_some _ _ Sv) as [qv Qv].
    pose proof (R x) as Vx. rewrite Qx in *. cbn in Qv.
    pose proof (room_le _ _ (proj1 Tx) Rm) as [M1 M2]. pose proof (N x) as [N1 N2]. unfold raw_bounded in *.
    destruct (small_arith_total o (ty x) op (RI (s x) z) B qx (inject_Z z) qv) as [r [-> [Br1 Br2]]]; auto; try reflexivity.
    + split; auto.
    + cbn. unfold raw_bounded. lia.
    + split; [eapply small_proper; eauto|auto].
    + cbn. eexists; split; [reflexivity|]. apply no_least_write; auto. unfold raw_bounded, room in *. lia.
  - destruct F as [Fa Fb], Rm as [Ra Rb], NL as [Na Nb].
    destruct (run_small B fuel q a) as [q1|] eqn:E; [|discriminate].
    destruct (IH s q a q1 O W R N Fa Na Ra E) as [s1 [X N1]]. pose proof (SIM s q a W R Fa) as M. rewrite X in M |- *.
    rewrite (run_small_run _ _ _ _ _ E) in M. destruct M as [q2 [E2 [R1 W1]]].
    inversion E2; subst q2. eauto.
  - destruct (bsmall B q b) eqn:S; [|discriminate]. destruct F as [Fb [Fx Fy]], Rm as [Rb [Rx Ry]], NL as [Nb [Nx Ny]].
    destruct (beval_small o pos B ty s q b O W R N Fb Nb Rb S) as [v E]. rewrite E.
    rewrite (beval_any _ _ _ _ _ _ _ W R Fb E). destruct (bmeaning q b); eauto.
  - destruct (bsmall B q b) eqn:S; [|discriminate]. pose proof F as [Fb Fx]. pose proof Rm as [Rb Rx]. pose proof NL as [Nb Nx].
    destruct (beval_small o pos B ty s q b O W R N Fb Nb Rb S) as [v E]. rewrite E.
    rewrite (beval_any _ _ _ _ _ _ _ W R Fb E). destruct (bmeaning q b); [|eauto].
    destruct (run_small B fuel q x) as [q1|] eqn:E1; [|discriminate].
    destruct (IH s q x q1 O W R N Fx Nx Rx E1) as [s1 [X N1]]. pose proof (SIM s q x W R Fx) as M. rewrite X in M |- *.
    rewrite (run_small_run _ _ _ _ _ E1) in M. destruct M as [q2 [E2 [R1 W1]]].
    inversion E2; subst q2. eapply IH; eauto.
Qed.

Theorem exec_small_total : forall o pos B ty fuel s q c q', reduces_inputs o = true -> any_store pos ty s ->
  represents s q -> no_least_store ty s -> suits o pos ty c -> no_least_s c -> room_s B ty c ->
  run_small B fuel q c = Some q' ->
  exists s', exec (denote o) ty fuel s c = Some (Ok s') /\ represents s' q' /\ any_store pos ty s'.
Proof.
  intros o pos B ty fuel s q c q' O W R N F NL Rm H.
  destruct (exec_small_defined o pos B ty fuel s q c q' O W R N F NL Rm H) as [s' [E _]]. exists s'. split; auto.
  pose proof (exec_any o pos ty fuel s q c W R F) as M. rewrite E, (run_small_run _ _ _ _ _ H) in M.
  destruct M as [q2 [E2 M]]. inversion E2; subst. auto.
Qed.
