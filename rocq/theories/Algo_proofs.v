(** Comparison-driven algorithms. *)

From Coq Require Import ZArith QArith List Bool Sorted Permutation Lia Arith.
From Verif Require Import Machine Raw Ops Spec Fraction Fraction_spec Tight_spec Mixed_spec Defined_spec Algo Algo_spec.
From Verif Require Import Machine_proofs Value_proofs Ops_proofs Cmp_proofs Tight_proofs Fraction_proofs Defined_proofs.
Import ListNotations.
Open Scope Z_scope.

Definition zero := mkRaw 0 1.

Lemma stand_nth : forall xs qs i, stand_for xs qs -> same_value (value (nth i xs zero)) (Some (nth i qs 0%Q)).
Proof.
  intros xs qs i H. revert i. induction H as [|x q xs qs E H IH]; intros [|i]; cbn [nth]; auto.
  - reflexivity.
  - reflexivity.
Qed.

Lemma forall_nth : forall (P : raw -> Prop) xs i, Forall P xs -> P zero -> P (nth i xs zero).
Proof.
  intros P xs i H Z0. revert i. induction H; intros [|i]; cbn [nth]; auto.
Qed.

Lemma wf_zero : forall t, wf_rep t -> wf_raw t zero.
Proof. intros t W. split; apply in_rep_iff; pose proof (rmax_big t W); pose proof (rmin_nonpos t W); unfold zero; cbn [num den]; lia. Qed.

Lemma exact_cmp_opt_same : forall op x y p q, same_value x (Some p) -> same_value y (Some q) ->
  exact_cmp_opt op x y = exact_cmp op p q.
Proof.
  intros op [x|] [y|] p q HX HY; cbn [same_value] in *; try contradiction. cbn [exact_cmp_opt].
  destruct op; cbn [exact_cmp]; now rewrite HX, HY.
Qed.

Theorem run_decides : forall A o t xs qs (g : algo A) r, signed_rep t -> Forall (wf_raw t) xs -> stand_for xs qs ->
  orders o xs -> run (denote o) t xs g = Ok r -> run_rational qs g = r.
Proof.
  intros A o t xs qs g r [W S] WX ST OR. induction g as [a|op i j k IH]; intros H; cbn [run run_rational] in *.
  - now injection H as <-.
  - fold zero in H. rewrite f_cmp_self in H.
    destruct (p_cmp (denote o) t op (RR (nth i xs zero) (nth j xs zero))) as [b|] eqn:E; [|discriminate].
    cbn [bind] in H. rewrite <- (IH b H). f_equal. f_equal. symmetry.
    pose proof (forall_nth _ _ i WX (wf_zero t W)) as Wi. pose proof (forall_nth _ _ j WX (wf_zero t W)) as Wj.
    rewrite (denote_cmp o t op (RR (nth i xs zero) (nth j xs zero)) b W S (conj Wi Wj)); auto.
    + cbn [left_value right_value]. apply exact_cmp_opt_same; now apply stand_nth.
    + right. destruct OR as [OR|[OR|OR]]; unfold order_domain; auto.
      right; left. split; now apply (forall_nth (fun x => 0 < den x)).
Qed.

Theorem run_total : forall A o t xs (g : algo A), signed_rep t -> asks_below (length xs) g ->
  (forall x y, In x xs -> In y xs -> cross_fit (rmax t) x y) ->
  exists r, run (denote o) t xs g = Ok r.
Proof.
  intros A o t xs g SR AB F. induction g as [a|op i j k IH]; cbn [run asks_below] in *.
  - eauto.
  - destruct AB as [I [J K]]. rewrite f_cmp_self. fold zero.
    destruct (denote_cmp_tight o t op (RR (nth i xs zero) (nth j xs zero)) SR) as [b E].
    { cbn [lraw rraw]. apply F; now apply nth_In. }
    rewrite E. cbn [bind]. now apply IH.
Qed.

Lemma stand_nth_value : forall xs qs i, stand_for xs qs -> exists a, value (nth i xs zero) = Some a /\ (a == nth i qs 0)%Q.
Proof.
  intros xs qs i H. apply (stand_nth xs qs i) in H. destruct (value (nth i xs zero)) as [a|]; [|destruct H]. eauto.
Qed.

Lemma common_proper : forall M a b a' b', (a == a')%Q -> (b == b')%Q -> common_fits M a b -> common_fits M a' b'.
Proof.
  intros M a b a' b' A B. unfold common_fits, over, least_den.
  destruct (low_proper _ _ A) as [-> ->], (low_proper _ _ B) as [-> ->]. auto.
Qed.

Theorem run_total_defaults : forall A t xs qs (g : algo A), signed_rep t -> asks_below (length xs) g ->
  Forall (raw_bounded (rmax t)) xs -> stand_for xs qs ->
  (forall a b, In a qs -> In b qs -> common_fits (rmax t) a b) ->
  exists r, run (denote defaults) t xs g = Ok r.
Proof.
  intros A t xs qs g SR AB BX ST F. assert (LE : length xs = length qs) by (clear - ST; induction ST; cbn [length]; auto).
  induction g as [a|op i j k IH]; cbn [run asks_below] in *.
  - eauto.
  - destruct AB as [I [J K]]. rewrite f_cmp_self. fold zero.
    destruct (stand_nth_value xs qs i ST) as [a [VA EA]]. destruct (stand_nth_value xs qs j ST) as [b [VB EB]].
    pose proof (proj1 (Forall_forall _ _) BX) as BX'.
    destruct (proj2 (io_cmp_iff t op (nth i xs zero) (nth j xs zero) a b SR
      (BX' _ (nth_In xs zero I)) (BX' _ (nth_In xs zero J)) VA VB)) as [x E].
    { apply (common_proper _ (nth i qs 0%Q) (nth j qs 0%Q)); [now symmetry|now symmetry|].
      apply F; apply nth_In; lia. }
    rewrite E. cbn [bind]. now apply IH.
Qed.

(** ** Insertion sort *)

Fixpoint insQ (qs : list Q) (i : nat) (l : list nat) : list nat :=
  match l with
  | [] => [i]
  | j :: r => if exact_cmp Lt (nth i qs 0%Q) (nth j qs 0%Q) then i :: l else j :: insQ qs i r
  end.

Lemma insert_by_run : forall qs i l k, run_rational qs (insert_by i l k) = run_rational qs (k (insQ qs i l)).
Proof.
  intros qs i l. induction l as [|j l IH]; intros k; cbn [insert_by insQ run_rational]; auto.
  destruct (exact_cmp Lt _ _); auto. now rewrite IH.
Qed.

Lemma insertion_run : forall qs is k,
  run_rational qs (insertion_sort is k) = run_rational qs (k (fold_right (insQ qs) [] is)).
Proof.
  intros qs is. induction is as [|i r IH]; intros k; cbn [insertion_sort fold_right]; auto.
  rewrite IH. apply insert_by_run.
Qed.

Lemma insQ_perm : forall qs i l, Permutation (insQ qs i l) (i :: l).
Proof.
  intros qs i l. induction l as [|j l IH]; cbn [insQ]; auto. destruct (exact_cmp Lt _ _); auto.
  rewrite IH. apply perm_swap.
Qed.

Lemma lt_bool : forall x y, exact_cmp Lt x y = true <-> (x < y)%Q.
Proof.
  intros x y. cbn [exact_cmp]. rewrite negb_true_iff, <- not_true_iff_false, Qle_bool_iff. split; [apply Qnot_le_lt|apply Qlt_not_le].
Qed.

Lemma lt_bool_false : forall x y, exact_cmp Lt x y = false <-> (y <= x)%Q.
Proof.
  intros x y. rewrite <- not_true_iff_false, lt_bool. split; [apply Qnot_lt_le|apply Qle_not_lt].
Qed.

Lemma insQ_sorted : forall qs i l, let R := fun i j => (nth i qs 0 <= nth j qs 0)%Q in
  StronglySorted R l -> StronglySorted R (insQ qs i l).
Proof.
  intros qs i l R. induction l as [|j l IH]; intros H; cbn [insQ].
  - repeat constructor.
  - inversion H as [|? ? H1 H2]; subst. destruct (exact_cmp Lt _ _) eqn:E.
    + apply lt_bool in E. constructor; auto. constructor; [unfold R; now apply Qlt_le_weak|].
      eapply Forall_impl; [|exact H2]. intros k HK. unfold R in *. eapply Qle_trans; [|exact HK]. now apply Qlt_le_weak.
    + apply lt_bool_false in E. constructor; auto.
      eapply Permutation_Forall; [symmetry; apply insQ_perm|]. constructor; auto.
Qed.

Theorem insertion_sorts : forall n, sorting n (insertion_sort (seq 0 n) Done).
Proof.
  intros n qs L. rewrite insertion_run. cbn [run_rational]. generalize (seq 0 n) as is. clear L.
  induction is as [|i is [IP IS]]; cbn [fold_right]; [repeat constructor|]. split.
  - rewrite insQ_perm. now constructor.
  - now apply insQ_sorted.
Qed.

Lemma insert_by_asks : forall n i l k, (i < n)%nat -> Forall (fun j => (j < n)%nat) l ->
  (forall s, Forall (fun j => (j < n)%nat) s -> asks_below n (k s)) -> asks_below n (insert_by i l k).
Proof.
  intros n i l. induction l as [|j l IH]; intros k I L K; cbn [insert_by asks_below].
  - apply K. now repeat constructor.
  - inversion L; subst. repeat split; auto. intros []; [apply K; now constructor|].
    apply IH; auto.
Qed.

Lemma insertion_asks_gen : forall n is k, Forall (fun j => (j < n)%nat) is ->
  (forall s, Forall (fun j => (j < n)%nat) s -> asks_below n (k s)) -> asks_below n (insertion_sort is k).
Proof.
  intros n is. induction is as [|i is IH]; intros k L K; cbn [insertion_sort].
  - apply K. constructor.
  - inversion L; subst. apply IH; auto. intros s HS. now apply insert_by_asks.
Qed.

Theorem insertion_asks : forall n, asks_below n (insertion_sort (seq 0 n) Done).
Proof.
  intros n. apply insertion_asks_gen; [|now intros]. apply Forall_forall. intros x X. apply in_seq in X. lia.
Qed.

(** ** Binary search *)

Theorem lower_bound_asks : forall N x fuel lo n, (x < N)%nat -> (lo + n <= N)%nat -> asks_below N (lower_bound fuel x lo n).
Proof.
  intros N x fuel. induction fuel as [|f IH]; intros lo n X L; cbn [lower_bound asks_below]; auto.
  destruct n as [|n]; cbn [asks_below]; auto.
  assert (HB : (Nat.div2 (S n) < S n)%nat) by (apply Nat.lt_div2; lia).
  repeat split; auto; [lia|]. intros []; apply IH; lia.
Qed.


Theorem lower_bound_splits : forall qs x n fuel lo, (n <= fuel)%nat ->
  (forall i j, (lo <= i <= j)%nat -> (j < lo + n)%nat -> (nth i qs 0 <= nth j qs 0)%Q) ->
  splits qs x lo n (run_rational qs (lower_bound fuel x lo n)).
Proof.
  intros qs x n fuel. revert n. induction fuel as [|f IH]; intros n lo L HS.
  - replace n with 0%nat by lia. cbn [lower_bound run_rational]. repeat split; intros; lia.
  - destruct n as [|n]; [cbn [lower_bound run_rational]; repeat split; intros; lia|].
    cbn [lower_bound run_rational]. set (h := Nat.div2 (S n)).
    assert (HB : (h < S n)%nat) by (apply Nat.lt_div2; lia).
    destruct (exact_cmp Lt (nth (lo + h) qs 0%Q) (nth x qs 0%Q)) eqn:E.
    + apply lt_bool in E.
      destruct (IH (S n - h - 1)%nat (lo + h + 1)%nat) as [B [LO HI]]; [lia|intros i j I J; apply HS; lia|].
      set (k := run_rational qs _) in *. split; [lia|]. split.
      * intros i I. destruct (Nat.le_gt_cases (lo + h + 1) i) as [G|G]; [apply LO; lia|].
        eapply Qle_lt_trans; [|exact E]. apply HS; lia.
      * intros i I. apply HI. lia.
    + apply lt_bool_false in E.
      destruct (IH h lo) as [B [LO HI]]; [lia|intros i j I J; apply HS; lia|].
      set (k := run_rational qs _) in *. split; [lia|]. split.
      * intros i I. apply LO. lia.
      * intros i I. destruct (Nat.le_gt_cases (lo + h) i) as [G|G]; [|apply HI; lia].
        eapply Qle_trans; [exact E|]. apply HS; lia.
Qed.
