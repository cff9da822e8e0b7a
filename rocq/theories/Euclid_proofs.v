(** Euclid's algorithm on fractions. *)

From Coq Require Import ZArith QArith Qreduction Bool Lia Znumtheory Wf_Z.
From Verif Require Import Machine Raw Ops Spec Fraction Fmath Mixed_spec Defined_spec Program Program_spec ProgDef_spec Euclid_spec.
From Verif Require Import Machine_proofs Value_proofs Ops_proofs Fraction_proofs Mixed_proofs Defined_proofs Defined2_proofs
  Program_proofs ProgDef_proofs.
Open Scope Z_scope.

(** ** Rationals over a common denominator *)

Local Notation at_den L x A := (x == inject_Z A / inject_Z L)%Q (only parsing).

Lemma inject_nonzero : forall L, L <> 0 -> ~ (inject_Z L == 0)%Q.
Proof. intros L H E. apply H. unfold Qeq in E. cbn in E. lia. Qed.

Lemma at_cross : forall L x A, 0 < L -> at_den L x A -> low_num x * L = A * low_den x.
Proof.
  intros L x A P H.  rewrite <- (low_value x) in H. pose proof (low_den_pos x) as D.
  assert (N1 := inject_nonzero L ltac:(lia)). assert (N2 := inject_nonzero (low_den x) ltac:(lia)).
  apply (inject_Z_injective (low_num x * L) (A * low_den x)). rewrite !inject_Z_mult.
  set (n := inject_Z (low_num x)) in *. set (d := inject_Z (low_den x)) in *. set (l := inject_Z L) in *. set (a := inject_Z A) in *.
  assert (E : (n == (a / l) * d)%Q) by (rewrite <- H; field; auto).
  rewrite E. field. auto.
Qed.

Lemma at_low : forall L x A, 0 < L -> at_den L x A -> exists k, 0 < k /\ L = low_den x * k /\ A = low_num x * k.
Proof.
  intros L x A P H. pose proof (at_cross _ _ _ P H) as E. pose proof (low_den_pos x) as D.
  assert (V : (low_den x | L)).
  { apply (Gauss (low_den x) (low_num x) L).
    - exists A. exact E.
    - apply Zgcd_1_rel_prime. rewrite Z.gcd_comm. apply low_canonical. }
  destruct V as [k K]. exists k. assert (0 < k) by nia. split; [auto|]. split; [lia|].
  apply (Z.mul_cancel_r _ _ (low_den x)); [lia|]. rewrite <- E, K. ring.
Qed.

Lemma at_least : forall L x y A B, 0 < L -> at_den L x A -> at_den L y B ->
  exists k, 0 < k /\ L = least_den x y * k /\ A = over x (least_den x y) * k /\ B = over y (least_den x y) * k.
Proof.
  intros L x y A B P HA HB. destruct (at_low _ _ _ P HA) as (k & K0 & KL & KA). destruct (at_low _ _ _ P HB) as (m & M0 & ML & MB).
  pose proof (low_den_pos x) as Dx. pose proof (low_den_pos y) as Dy.
  assert (V : (least_den x y | L)) by (apply Z.lcm_least; [exists k|exists m]; lia).
  destruct V as [j J].
  assert (L0 : 0 <= least_den x y) by apply Z.lcm_nonneg. assert (J0 : 0 < j) by nia.
  exists j. split; [auto|]. split; [lia|].
  destruct (Z.divide_lcm_l (low_den x) (low_den y)) as [u U]. destruct (Z.divide_lcm_r (low_den x) (low_den y)) as [w WW].
  fold (least_den x y) in U, WW. unfold over. split.
  - replace (least_den x y / low_den x) with u by (rewrite U; symmetry; apply Z.div_mul; lia). rewrite KA.
    assert (k = u * j) by (apply (Z.mul_cancel_l _ _ (low_den x)); [lia|]; nia). subst k. ring.
  - replace (least_den x y / low_den y) with w by (rewrite WW; symmetry; apply Z.div_mul; lia). rewrite MB.
    assert (m = w * j) by (apply (Z.mul_cancel_l _ _ (low_den y)); [lia|]; nia). subst m. ring.
Qed.

Lemma over_at : forall x y, 0 < least_den x y /\ at_den (least_den x y) x (over x (least_den x y)) /\
  at_den (least_den x y) y (over y (least_den x y)).
Proof.
  intros x y. pose proof (low_den_pos x) as Dx. pose proof (low_den_pos y) as Dy.
  assert (P : 0 < least_den x y).
  { unfold least_den. pose proof (Z.lcm_nonneg (low_den x) (low_den y)). assert (Z.lcm (low_den x) (low_den y) <> 0) by (rewrite Z.lcm_eq_0; lia). lia. }
  destruct (Z.divide_lcm_l (low_den x) (low_den y)) as [u U]. destruct (Z.divide_lcm_r (low_den x) (low_den y)) as [w WW].
  fold (least_den x y) in U, WW.
  assert (G : forall z k, 0 < low_den z -> least_den x y = k * low_den z -> at_den (least_den x y) z (over z (least_den x y))).
  { intros z k D E. unfold over. rewrite E, Z.div_mul by lia. rewrite !inject_Z_mult, <- (low_value z) at 1.
    field. split; apply inject_nonzero; nia. }
  split; [exact P|]. split; eapply G; eauto.
Qed.

Lemma at_zero : forall L x A, 0 < L -> at_den L x A -> (x == 0)%Q <-> A = 0.
Proof.
  intros L x A P H. rewrite low_zero. pose proof (at_cross _ _ _ P H). pose proof (low_den_pos x). nia.
Qed.

Lemma at_mod : forall L x y A B, 0 < L -> at_den L x A -> at_den L y B -> B <> 0 ->
  exists z, exact Modulus x y = Some z /\ at_den L z (Z.rem A B).
Proof.
  intros L x y A B P HA HB NB. cbn [exact].
  destruct (Qeq_bool y 0) eqn:E.
  { apply Qeq_bool_eq in E. apply (at_zero _ _ _ P HB) in E. contradiction. }
  eexists. split; [reflexivity|].
  assert (NL := inject_nonzero L ltac:(lia)). assert (NBq := inject_nonzero B NB).
  assert (T : Qtrunc (x / y) = Z.quot A B).
  { rewrite <- Qtrunc_div by auto. apply Qtrunc_proper. rewrite HA, HB. field. auto. }
  rewrite T, HA, HB. assert (R := Z.quot_rem A B NB).
  assert (RE : Z.rem A B = A - B * Z.quot A B) by lia. rewrite RE. unfold Z.sub.
  rewrite inject_Z_plus, inject_Z_opp, inject_Z_mult. field. auto.
Qed.

Lemma rem_small : forall a b, Z.abs a < Z.abs b -> Z.rem a b = a.
Proof. intros a b H. apply Z.rem_small_iff; lia. Qed.

(** ** The program over the rationals *)

Definition holds (q : qstore) (x y : Q) : Prop := q 0%nat = Some x /\ q 1%nat = Some y.
Definition next (q : qstore) : qstore :=
  qwrite (qwrite (qwrite q 2 (exact_opt Modulus (q 0%nat) (q 1%nat))) 0 (q 1%nat)) 1 (exact_opt Modulus (q 0%nat) (q 1%nat)).

Lemma body_run : forall n q, (3 <= n)%nat -> run n q euclid_body = Some (next q).
Proof. intros n q H. destruct n as [|[|[|n]]]; try lia. reflexivity. Qed.

Lemma next_holds : forall q x y z, holds q x y -> exact Modulus x y = Some z -> holds (next q) y z.
Proof. intros q x y z [X Y] E. unfold next. rewrite X, Y. cbn [exact_opt]. rewrite E. split; cbn; auto. Qed.

Lemma test_ne : forall q y, q 1%nat = Some y ->
  bmeaning q (BCmpInt Ne (EVar 1) (IConst int32 0)) = negb (Qeq_bool y 0).
Proof. intros q y H. cbn. rewrite H. reflexivity. Qed.

Lemma loop_run : forall n q x y, (4 <= n)%nat -> holds q x y ->
  run n q euclid = if Qeq_bool y 0 then Some q else run (pred n) (next q) euclid.
Proof.
  intros n q x y H [X Y]. destruct n as [|n]; [lia|]. cbn [pred]. unfold euclid at 1. cbn [run].
  rewrite (test_ne _ _ Y). destruct (Qeq_bool y 0); cbn [negb]; [reflexivity|].
  rewrite body_run by lia. reflexivity.
Qed.

(** Ends with the greatest common divisor of the numerators, up to its sign. *)
Lemma euclid_run : forall L, 0 < L -> forall b A B q x y, Z.abs B <= b -> holds q x y -> at_den L x A -> at_den L y B ->
  exists N q' g z G, (forall n, (N <= n)%nat -> run n q euclid = Some q') /\ holds q' g z /\ (z == 0)%Q /\
    at_den L g G /\ Z.abs G = Z.gcd A B.
Proof.
  intros L P b. assert (P0 : 0 <= b \/ b < 0) by lia. destruct P0 as [P0|P0]; [|intros; lia]. revert b P0.
  apply (natlike_ind (fun b => forall A B q x y, Z.abs B <= b -> holds q x y -> at_den L x A -> at_den L y B ->
    exists N q' g z G, (forall n, (N <= n)%nat -> run n q euclid = Some q') /\ holds q' g z /\ (z == 0)%Q /\
      at_den L g G /\ Z.abs G = Z.gcd A B)).
  - intros A B q x y HB H HA HBy. assert (B = 0) by lia. subst B.
    assert (Y0 : (y == 0)%Q) by (apply (at_zero _ _ _ P HBy); auto).
    exists 4%nat, q, x, y, A. split.
    + intros n Hn. rewrite (loop_run n q x y Hn H), (proj2 (Qeq_bool_iff y 0) Y0). reflexivity.
    + rewrite Z.gcd_0_r. auto.
  - intros b P0 IH A B q x y HB H HA HBy. destruct (Z.eq_dec B 0) as [E|E].
    { subst B. assert (Y0 : (y == 0)%Q) by (apply (at_zero _ _ _ P HBy); auto).
      exists 4%nat, q, x, y, A. split.
      - intros n Hn. rewrite (loop_run n q x y Hn H), (proj2 (Qeq_bool_iff y 0) Y0). reflexivity.
      - rewrite Z.gcd_0_r. auto. }
    destruct (at_mod L x y A B P HA HBy E) as (z & EZ & AZ).
    pose proof (Z.rem_bound_abs A B E) as RB.
    destruct (IH B (Z.rem A B) (next q) y z ltac:(lia) (next_holds _ _ _ _ H EZ) HBy AZ) as (N & q' & g & w & G & R & H' & W0 & AG & GG).
    exists (S (Nat.max N 4)), q', g, w, G. split.
    + intros n Hn. rewrite (loop_run n q x y) by (auto; lia).
      destruct (Qeq_bool y 0) eqn:Q0; [apply Qeq_bool_eq, (at_zero _ _ _ P HBy) in Q0; contradiction|]. apply R. lia.
    + split; [auto|]. split; [auto|]. split; [auto|]. rewrite GG.
      rewrite Z.gcd_comm, (Z.gcd_rem A B E). apply Z.gcd_comm.
Qed.

Lemma gcd_at : forall L x y A B g G, 0 < L -> at_den L x A -> at_den L y B -> at_den L g G -> Z.abs G = Z.gcd A B -> is_gcd x y g.
Proof.
  intros L x y A B g G P HA HB HG E. assert (NL := inject_nonzero L ltac:(lia)).
  assert (MU : forall z C, at_den L z C -> (G | C) -> multiple z g).
  { intros z C HC [k K]. exists k. rewrite HC, HG, K, inject_Z_mult. field. auto. }
  assert (DA : (G | A)) by (apply Z.divide_abs_l; rewrite E; apply Z.gcd_divide_l).
  assert (DB : (G | B)) by (apply Z.divide_abs_l; rewrite E; apply Z.gcd_divide_r).
  split; [exact (MU x A HA DA)|]. split; [exact (MU y B HB DB)|].
  intros d [m Hm] [n Hn]. destruct (Z.gcd_bezout A B (Z.gcd A B) eq_refl) as [u [w U]].
  exists (Z.sgn G * (u * m + w * n)).
  assert (EG : G = Z.sgn G * (u * A + w * B)) by (rewrite U, <- E; pose proof (Z.abs_sgn G); pose proof (Z.sgn_abs G); lia).
  rewrite HG, EG at 1. rewrite !inject_Z_mult, !inject_Z_plus, !inject_Z_mult.
  assert (EA : (inject_Z A == d * inject_Z m * inject_Z L)%Q) by (rewrite <- Hm, HA; field; auto).
  assert (EB : (inject_Z B == d * inject_Z n * inject_Z L)%Q) by (rewrite <- Hn, HB; field; auto).
  rewrite EA, EB. field. auto.
Qed.

(** ** Definedness *)

Section Defined.
  Variable t : rep.
  Hypothesis SR : signed_rep t.
  Let M := rmax t.
  Let ty := fun _ : nat => t.

  Lemma int32_common : common_rep t int32 = t.
  Proof.
    destruct SR as [W S]. unfold wf_rep in W. unfold common_rep. cbn [rbits rsigned int32]. rewrite S.
    destruct t as [sg bt]; cbn in *. subst sg. repeat match goal with |- context [?a <? ?b] => destruct (Z.ltb_spec a b) | |- context [?a =? ?b] => destruct (Z.eqb_spec a b) | |- context [?a <=? ?b] => destruct (Z.leb_spec a b) end; cbn; try reflexivity; try lia; f_equal; lia.
  Qed.

  Lemma rmax_pos : 1 < M.
  Proof.
    destruct SR as [W S]. unfold M, rmax. rewrite S. unfold wf_rep in W.
    assert (2 ^ 31 <= 2 ^ (rbits t - 1)) by (apply Z.pow_le_mono_r; lia). lia.
  Qed.

  (** One test and one pass through the body. *)
  Definition test_ok (y : Q) : Prop := cmp_int_defined M (Some y) 0.
  Definition pass_ok (x y : Q) : Prop := arith_defined M Modulus (Some x) (Some y).

  Lemma loop_defined : forall n q x y, (4 <= n)%nat -> holds q x y ->
    run_defined ty n q euclid <->
    test_ok y /\ ((y == 0)%Q \/ ~ (y == 0)%Q /\ pass_ok x y /\ run_defined ty (pred n) (next q) euclid).
  Proof.
    intros n q x y Hn [X Y]. destruct n as [|n]; [lia|]. cbn [pred].
    unfold euclid at 1. cbn [run_defined]. rewrite (test_ne _ _ Y). cbn [bdefined fdefined ftype itype imeaning fmeaning].
    change (ty 1%nat) with t. rewrite int32_common, Y.
    assert (T : (True /\ (exists z, Some 0 = Some z /\ cmp_int_defined (rmax t) (Some y) z)) <-> test_ok y).
    { split; [intros (_ & z & E & H); injection E as <-; exact H|intros H; split; [exact I|exists 0; auto]]. }
    rewrite T. rewrite body_run by lia.
    assert (BD : run_defined ty n q euclid_body <-> pass_ok x y).
    { destruct n as [|[|[|n]]]; try lia. unfold euclid_body. cbn [run_defined run fdefined ftype fmeaning]. rewrite X, Y. change (ty 0%nat) with t. change (ty 1%nat) with t.
      rewrite common_self. fold M. unfold pass_ok. split; [tauto|]. intros H.
      split; [tauto|]. eexists. split; [reflexivity|]. split; [exact I|]. eexists. split; [reflexivity|]. exact I. }
    fold euclid. rewrite BD.
    destruct (Qeq_bool y 0) eqn:E.
    - apply Qeq_bool_eq in E. cbn [negb]. split; [intros [A B]; auto|intros [A B]; split; [auto|discriminate]].
    - apply Qeq_bool_neq in E. cbn [negb]. split.
      + intros [A B]. destruct (B eq_refl) as (B1 & q' & Eq & B2). injection Eq as <-. split; [exact A|]. right. split; [exact E|]. split; [exact B1|exact B2].
      + intros [A [B|(B1 & B2 & B3)]]; [contradiction|]. split; [auto|]. intros _. split; [auto|]. eexists. split; [reflexivity|auto].
  Qed.

  Lemma fuel_enough : forall n q x y, holds q x y -> ~ (y == 0)%Q -> run_defined ty n q euclid -> (4 <= n)%nat.
  Proof.
    intros n q x y [X Y] N D. destruct n as [|n]; [destruct D|]. unfold euclid in D. cbn [run_defined] in D.
    rewrite (test_ne _ _ Y) in D. destruct D as [_ D].
    assert (E : negb (Qeq_bool y 0) = true) by (destruct (Qeq_bool y 0) eqn:E; [apply Qeq_bool_eq in E; contradiction|reflexivity]).
    destruct (D E) as [B _]. destruct n as [|[|[|n]]]; [destruct B|destruct B as [[] _]| |lia].
    destruct B as (_ & q' & _ & []). contradiction.
  Qed.

  Lemma test_low : forall y, Z.abs (low_num y) <= M -> low_den y <= M -> test_ok y.
  Proof.
    intros y A B. split; [exact A|]. unfold common_fits. destruct (over_int_r y 0) as (E1 & E2 & E3).
    rewrite E2, E3, E1. lia.
  Qed.

  Lemma small_test : forall L y B, 0 < L <= M -> Z.abs B <= M -> at_den L y B -> test_ok y.
  Proof.
    intros L y B [P LM] BM H. destruct (at_low _ _ _ P H) as (k & K & E1 & E2). pose proof (low_den_pos y).
    apply test_low; nia.
  Qed.

  Lemma small_pass : forall L x y A B, 0 < L <= M -> Z.abs A <= M -> Z.abs B <= M -> B <> 0 -> at_den L x A -> at_den L y B -> pass_ok x y.
  Proof.
    intros L x y A B [P LM] AM BM NB HA HB.
    destruct (at_low _ _ _ P HA) as (k & K & E1 & E2). destruct (at_low _ _ _ P HB) as (m & K' & E1' & E2').
    destruct (at_least _ _ _ _ _ P HA HB) as (j & J & F1 & F2 & F3). pose proof (proj1 (over_at x y)) as LP.
    pose proof (low_den_pos y). pose proof (low_den_pos x).
    assert (Z.abs (over x (least_den x y)) <= M) by nia. assert (Z.abs (over y (least_den x y)) <= M) by nia.
    split; [cbn; nia|]. split; [cbn; nia|]. cbn [enough]. split; [|split].
    - unfold common_fits. nia.
    - rewrite (at_zero _ _ _ P HB). exact NB.
    - lia.
  Qed.

  (** Numerators of at most M over one denominator: defined to the end. *)
  Lemma small_defined : forall L, 0 < L <= M -> forall b A B q x y, Z.abs B <= b -> Z.abs A <= M -> Z.abs B <= M ->
    holds q x y -> at_den L x A -> at_den L y B -> exists N, forall n, (N <= n)%nat -> run_defined ty n q euclid.
  Proof.
    intros L PL b. assert (P0 : 0 <= b \/ b < 0) by lia. destruct P0 as [P0|P0]; [|intros; lia]. revert b P0.
    assert (P := proj1 PL).
    apply (natlike_ind (fun b => forall A B q x y, Z.abs B <= b -> Z.abs A <= M -> Z.abs B <= M ->
      holds q x y -> at_den L x A -> at_den L y B -> exists N, forall n, (N <= n)%nat -> run_defined ty n q euclid)).
    - intros A B q x y HB AM BM H HA HBy. exists 4%nat. intros n Hn. apply (loop_defined n q x y Hn H).
      split; [exact (small_test L y B PL BM HBy)|]. left. apply (at_zero _ _ _ P HBy). lia.
    - intros b P0 IH A B q x y HB AM BM H HA HBy. destruct (Z.eq_dec B 0) as [E|E].
      { exists 4%nat. intros n Hn. apply (loop_defined n q x y Hn H).
        split; [exact (small_test L y B PL BM HBy)|]. left. now apply (at_zero _ _ _ P HBy). }
      destruct (at_mod L x y A B P HA HBy E) as (z & EZ & AZ). pose proof (Z.rem_bound_abs A B E) as RB.
      destruct (IH B (Z.rem A B) (next q) y z ltac:(lia) BM ltac:(lia) (next_holds _ _ _ _ H EZ) HBy AZ) as (N & D).
      exists (S (Nat.max N 4)). intros n Hn. apply (loop_defined n q x y ltac:(lia) H).
      split; [exact (small_test L y B PL BM HBy)|]. right. split; [rewrite (at_zero _ _ _ P HBy); auto|].
      split; [exact (small_pass L x y A B PL AM BM E HA HBy)|]. apply D. lia.
  Qed.

  Lemma least_comm : forall x y, least_den x y = least_den y x.
  Proof. intros x y. apply Z.lcm_comm. Qed.
  Lemma fits_comm : forall x y, common_fits M x y -> common_fits M y x.
  Proof. intros x y. unfold common_fits. rewrite (least_comm y x). tauto. Qed.
  Lemma den_le : forall x y, low_den x <= least_den x y /\ low_den y <= least_den x y.
  Proof.
    intros x y. pose proof (proj1 (over_at x y)) as P.
    split; apply Z.divide_pos_le; auto; [apply Z.divide_lcm_l|apply Z.divide_lcm_r].
  Qed.

  Lemma euclid_defined : forall q x y, holds q x y ->
    (exists n, run_defined ty n q euclid) <-> euclid_fits M x y.
  Proof.
    intros q x y H. destruct (over_at x y) as (P & HA & HB). destruct (den_le x y) as [Dx Dy].
    set (L := least_den x y) in *. set (A := over x L) in *. set (B := over y L) in *. pose proof rmax_pos as MP.
    assert (ZB := at_zero _ _ _ P HB). split.
    - intros [n D]. destruct (Qeq_bool y 0) eqn:Y0; [left; now apply Qeq_bool_eq|]. apply Qeq_bool_neq in Y0. right.
      assert (Hm := fuel_enough _ _ _ _ H Y0 D). apply (loop_defined n q x y Hm H) in D as (_ & [?|(_ & PO & D)]); [contradiction|].
      destruct PO as (B1 & B2 & CF & _ & NM). cbn in B1, B2. fold L A B in NM.
      split; [auto|]. split; [auto|]. split; [auto|]. cbv zeta. fold L A B. split; [auto|].
      intros [EA EB]. destruct (at_mod L x y A B P HA HB ltac:(tauto)) as (z & EZ & AZ).
      assert (RE : Z.rem A B = A) by (apply rem_small; lia).
      rewrite RE in AZ.
      assert (ZX : (z == x)%Q) by (rewrite AZ, HA; reflexivity).
      assert (NZ : ~ (z == 0)%Q) by (rewrite (at_zero _ _ _ P AZ); lia). assert (H1 := next_holds _ _ _ _ H EZ).
      apply (loop_defined (pred n) (next q) y z (fuel_enough _ _ _ _ H1 NZ D) H1) in D as (_ & [Z0|(_ & PO & _)]).
      + contradiction.
      + destruct PO as (_ & _ & E). apply (enough_proper M Modulus y y z x (Qeq_refl _) ZX) in E. destruct E as (_ & _ & E).
        rewrite (least_comm y x) in E. fold L A B in E. tauto.
    - intros [Y0|(B1 & B2 & CF & N1 & N2)].
      { exists 4%nat. apply (loop_defined 4 q x y ltac:(lia) H). split; [|auto]. apply test_low.
        - apply low_zero in Y0. rewrite Y0. lia.
        - destruct (low_proper _ _ Y0) as [_ ->]. change (low_den 0) with 1. lia. }
      fold L A B in N1, N2. pose proof CF as (F1 & F2 & F3). fold L A B in F1, F2, F3.
      assert (TY : test_ok y) by (apply test_low; lia).
      destruct (Qeq_bool y 0) eqn:Y0.
      { apply Qeq_bool_eq in Y0. exists 4%nat. apply (loop_defined 4 q x y ltac:(lia) H). auto. }
      apply Qeq_bool_neq in Y0. assert (NB : B <> 0) by tauto.
      assert (PO : pass_ok x y) by (split; [auto|]; split; [auto|]; split; [auto|]; split; auto).
      destruct (at_mod L x y A B P HA HB NB) as (z & EZ & AZ). pose proof (Z.rem_bound_abs A B NB) as RB.
      assert (H1 := next_holds _ _ _ _ H EZ).
      assert (CASE : B = - M - 1 \/ Z.abs B <= M) by lia. destruct CASE as [EB|BM].
      + assert (AM : Z.abs A <= M).
        { destruct (Z.eq_dec A (- M - 1)) as [EA|]; [|lia]. exfalso.
          destruct (at_low _ _ _ P HA) as (k & K & E1 & E2). destruct (at_low _ _ _ P HB) as (m & K' & E1' & E2').
          assert (XY : (x == y)%Q) by (rewrite HA, HB, EA, EB; reflexivity).
          destruct (low_proper _ _ XY) as [LN LD]. unfold L, least_den in E1. rewrite <- LD, Z.lcm_diag in E1.
          pose proof (low_den_pos x). nia. }
        assert (RE : Z.rem A B = A) by (apply rem_small; lia).
        rewrite RE in AZ. assert (ZX : (z == x)%Q) by (rewrite AZ, HA; reflexivity).
        destruct (low_proper _ _ ZX) as [LZn LZd].
        assert (TZ : test_ok z) by (apply test_low; [rewrite LZn|rewrite LZd]; lia).
        destruct (Z.eq_dec A 0) as [A0|A0].
        * exists 8%nat. apply (loop_defined 8 q x y ltac:(lia) H). split; [auto|]. right. split; [auto|]. split; [auto|].
          apply (loop_defined 7 (next q) y z ltac:(lia) H1). split; [auto|]. left. now apply (at_zero _ _ _ P AZ).
        * assert (PO2 : pass_ok y z).
          { split; [auto|]. split; [cbn; rewrite LZn; auto|]. apply (enough_proper M Modulus y y z x (Qeq_refl _) ZX).
            split; [now apply fits_comm|]. split; [now rewrite (at_zero _ _ _ P HA)|].
            rewrite (least_comm y x). fold L A B. tauto. }
          destruct (at_mod L y z B A P HB AZ A0) as (w & EW & AW). pose proof (Z.rem_bound_abs B A A0) as RB2.
          destruct (small_defined L ltac:(lia) (Z.abs (Z.rem B A)) A (Z.rem B A) (next (next q)) z w ltac:(lia) AM ltac:(lia)
            (next_holds _ _ _ _ H1 EW) AZ AW) as (N & D).
          exists (S (S (Nat.max N 8))). apply (loop_defined (S (S (Nat.max N 8))) q x y ltac:(lia) H). split; [auto|]. right. split; [auto|]. split; [auto|].
          cbn [pred]. apply (loop_defined (S (Nat.max N 8)) (next q) y z ltac:(lia) H1). split; [auto|]. right.
          split; [now rewrite (at_zero _ _ _ P AZ)|]. split; [auto|]. cbn [pred]. apply D. lia.
      + destruct (small_defined L ltac:(lia) (Z.abs (Z.rem A B)) B (Z.rem A B) (next q) y z ltac:(lia) BM ltac:(lia) H1 HB AZ) as (N & D).
        exists (S (Nat.max N 8)). apply (loop_defined (S (Nat.max N 8)) q x y ltac:(lia) H). split; [auto|]. right. split; [auto|]. split; [auto|].
        cbn [pred]. apply D. lia.
  Qed.
End Defined.

(** ** The program on fractions *)

Lemma euclid_wf : forall t, wf_s (fun _ => t) euclid.
Proof.
  intros t. cbn. rewrite common_self. repeat split; try lia; try (intros H; discriminate H).
Qed.

Lemma values_represent : forall s, represents s (fun v => value (s v)).
Proof. intros s v. destruct (value (s v)); cbn; [apply Qeq_refl|exact I]. Qed.

Lemma euclid_finishes : forall o t s x y, output_canonical o = true -> wf_store (fun _ => t) s ->
  value (s 0%nat) = Some x -> value (s 1%nat) = Some y ->
  exists N, forall fuel, (N <= fuel)%nat -> exec (denote o) (fun _ => t) fuel s euclid <> None.
Proof.
  intros o t s x y O W X Y. destruct (over_at x y) as (P & HA & HB).
  destruct (euclid_run _ P _ _ _ (fun v => value (s v)) x y (Z.le_refl _) (conj X Y) HA HB) as (N & q' & _ & _ & _ & R & _).
  exists N. intros fuel F E. pose proof (exec_sim o (fun _ => t) fuel s _ euclid O W (values_represent s) (euclid_wf t)) as M.
  rewrite E, (R fuel F) in M. discriminate M.
Qed.

Lemma run_step : forall n q q' c, run n q c = Some q' -> run (S n) q c = Some q'.
Proof.
  induction n as [|n IH]; intros q q' c H; [discriminate|]. destruct c as [|? ?|? ? ?|? ? ?|c1 c2|c1 c2 c3|c1 c2]; cbn [run] in H; try exact H.
  - destruct (run n q c1) as [q1|] eqn:E; [|discriminate].
    change (match run (S n) q c1 with Some s' => run (S n) s' c2 | None => None end = Some q').
    rewrite (IH _ _ _ E). now apply IH.
  - change (run (S n) q (if bmeaning q c1 then c2 else c3) = Some q'). now apply IH.
  - change ((if bmeaning q c1 then match run (S n) q c2 with Some s' => run (S n) s' (SWhile c1 c2) | None => None end else Some q) = Some q').
    destruct (bmeaning q c1); [|exact H]. destruct (run n q c2) as [q1|] eqn:E; [|discriminate].
    rewrite (IH _ _ _ E). now apply IH.
Qed.
Lemma run_more : forall k n q q' c, run n q c = Some q' -> run (k + n) q c = Some q'.
Proof. induction k; intros n q q' c H; [exact H|]. apply run_step. now apply IHk. Qed.

Lemma euclid_result : forall o t s x y fuel s', output_canonical o = true -> wf_store (fun _ => t) s ->
  value (s 0%nat) = Some x -> value (s 1%nat) = Some y -> exec (denote o) (fun _ => t) fuel s euclid = Some (Ok s') ->
  exists g, value (s' 0%nat) = Some g /\ is_gcd x y g /\ s' 1%nat = mkRaw 0 1.
Proof.
  intros o t s x y fuel s' O W X Y E. destruct (over_at x y) as (P & HA & HB).
  destruct (euclid_run _ P _ _ _ (fun v => value (s v)) x y (Z.le_refl _) (conj X Y) HA HB) as (N & q' & g & z & G & R & [G0 Z1] & Z0 & AG & GG).
  pose proof (exec_sim o (fun _ => t) fuel s _ euclid O W (values_represent s) (euclid_wf t)) as M.
  rewrite E in M. destruct M as (q2 & R2 & RP & W2).
  assert (q2 = q').
  { apply (run_more N) in R2. rewrite (R (N + fuel)%nat ltac:(lia)) in R2. now injection R2. }
  subst q2. pose proof (RP 0%nat) as V0. pose proof (RP 1%nat) as V1. rewrite G0 in V0. rewrite Z1 in V1.
  destruct (value (s' 0%nat)) as [v|]; [|contradiction]. exists v. split; [reflexivity|]. cbn in V0. split.
  - apply (gcd_at _ x y _ _ v G P HA HB); [rewrite V0; exact AG|exact GG].
  - destruct (value (s' 1%nat)) as [w|] eqn:VW; [|contradiction]. cbn in V1.
    apply canonical_unique; [apply (proj2 (proj2 (W2 1%nat)))|right; split; reflexivity|].
    rewrite VW. cbn. rewrite V1, Z0. reflexivity.
Qed.

Lemma euclid_exec_ok : forall t s x y, wf_store (fun _ => t) s -> value (s 0%nat) = Some x -> value (s 1%nat) = Some y ->
  (exists fuel s', exec (denote defaults) (fun _ => t) fuel s euclid = Some (Ok s')) <-> euclid_fits (rmax t) x y.
Proof.
  intros t s x y W X Y. rewrite <- (euclid_defined t (proj1 (W 0%nat)) (fun v => value (s v)) x y (conj X Y)).
  split; intros [fuel H]; exists fuel; apply (exec_ok _ _ _ _ _ W (values_represent s) (euclid_wf t)); exact H.
Qed.
