(** Proofs for C114: rounding twice. *)

From Coq Require Import ZArith QArith Qabs Bool Lia Lqa.
From Verif Require Import Machine Raw Ops Spec Fraction Fraction_spec Fmath Fmath_spec Rlaws_spec.
From Verif Require Import Machine_proofs Value_proofs Ops_proofs Fmath_proofs Fmath_claims Rlaws_proofs.
Open Scope Z_scope.

(** Case analysis, closing impossible cases early. *)
Ltac qp := repeat match goal with H : _ /\ _ |- _ => destruct H end;
  repeat match goal with H : _ \/ _ |- _ => destruct H as [H|H]; repeat match goal with G : _ /\ _ |- _ => destruct G end; try (exfalso; lra) end.

Lemma trunc_twice : forall c x j k l, 0 < c -> rounded round_trunc j x -> rounded round_trunc k (inject_Z j / inject_Z c) ->
  rounded round_trunc l (x / inject_Z c) -> k = l.
Proof.
  intros c x j k l C J K L. apply rounded_cases in J.
  apply (scaled_cases _ _ c _ _ C (div_mul _ _ C)) in K. apply (scaled_cases _ _ c _ _ C (div_mul _ _ C)) in L.
  cbv beta iota in J, K, L. pose proof inj0. pose proof (injlt 0 c C).
  destruct (multiples c k l C) as [M|M]; auto. exfalso. pose proof (zcmp j 0).
  pose proof (multiples c k 0 C). pose proof (multiples c l 0 C). assert (Z : (inject_Z (0 * c) == 0)%Q) by reflexivity.
  pose proof (zcmp j (k * c)). pose proof (zcmp j (l * c)).
  qp; repeat match goal with E : j = _ |- _ => rewrite E in *; clear E | E : k = 0 |- _ => rewrite E in *; clear E | E : l = 0 |- _ => rewrite E in *; clear E end; lra.
Qed.

Lemma ceil_twice : forall c x j k l, 0 < c -> rounded round_ceil j x -> rounded round_ceil k (inject_Z j / inject_Z c) ->
  rounded round_ceil l (x / inject_Z c) -> k = l.
Proof.
  intros c x j k l C J K L. apply rounded_cases in J.
  apply (scaled_cases _ _ c _ _ C (div_mul _ _ C)) in K. apply (scaled_cases _ _ c _ _ C (div_mul _ _ C)) in L.
  cbv beta iota in J, K, L. pose proof inj0. pose proof (injlt 0 c C). pose proof (injopp c) as IO.
  destruct (multiples c k l C) as [M|M]; auto. exfalso.
  destruct J as [[X J]|[[X|X] J]].
  - (* -1 < x < 0 *) assert (l = 1) by (destruct L as [[_ L]|[[L|L] _]]; auto; exfalso; lra). subst l. rewrite Z.mul_1_l in M.
    destruct K as [K|[_ K]]; [lra|]. lra.
  - destruct (Qlt_le_dec (- inject_Z c) x) as [X'|X'].
    + assert (l = 1) by (destruct L as [[_ L]|[[L|L] _]]; auto; exfalso; lra). subst l.
      assert (k = 1); [|subst; lra]. destruct K as [[_ K]|[K _]]; auto. exfalso.
      pose proof (zcmp j (- c)). pose proof (zcmp j (-1)). pose proof injm1. qp; subst; lra.
    + destruct L as [L|[_ L]]; [lra|]. assert (inject_Z j <= - inject_Z c)%Q by (pose proof (zcmp j (- c)); qp; subst; lra).
      destruct K as [K|[_ K]]; [lra|]. pose proof (zcmp j (l * c)). qp; try lra. repeat match goal with E : j = _ |- _ => rewrite E in *; clear E end; lra.
  - destruct L as [L|[_ L]]; [lra|]. destruct K as [K|[_ K]]; [lra|]. pose proof (zcmp j (l * c)). qp; try lra. repeat match goal with E : j = _ |- _ => rewrite E in *; clear E end; lra.
Qed.

Lemma floor_twice : forall c x j k l, 0 < c -> rounded round_floor j x -> rounded round_floor k (inject_Z j / inject_Z c) ->
  rounded round_floor l (x / inject_Z c) -> (k <> l <-> 1 < c /\ (- inject_Z c < x < 1 - inject_Z c)%Q).
Proof.
  intros c x j k l C J K L. apply rounded_cases in J.
  apply (scaled_cases _ _ c _ _ C (div_mul _ _ C)) in K. apply (scaled_cases _ _ c _ _ C (div_mul _ _ C)) in L.
  cbv beta iota in J, K, L. pose proof inj0. pose proof (injlt 0 c C). pose proof (injopp c) as IO.
  pose proof injone. pose proof injm1. split.
  - intros N. destruct (multiples c k l C) as [M|M]; [contradiction|]. clear N.
    destruct J as [[X J]|[[X|X] J]].
    + exfalso. assert (l = 0) by (destruct L as [[_ L]|[[L|L] _]]; auto; exfalso; lra). subst l. rewrite Z.mul_0_l in M.
      destruct K as [K|[_ K]]; lra.
    + destruct (Qlt_le_dec (- inject_Z c) x) as [X'|X'].
      * assert (l = 0) by (destruct L as [[_ L]|[[L|L] _]]; auto; exfalso; lra). subst l. rewrite Z.mul_0_l in M.
        destruct K as [[_ K]|[K K']]; [subst; rewrite Z.mul_0_l in M; lra|].
        pose proof (zcmp j (- c)). assert (j = - c) by (qp; auto; exfalso; lra). subst j.
        split; [|lra]. destruct (zcmp c 1) as [C1|[C1|C1]]; [lia| |lia]. exfalso. subst c. lra.
      * exfalso. destruct L as [L|[_ L]]; [lra|]. destruct K as [K|[_ K]]; [lra|]. pose proof (zcmp j (l * c)). pose proof (zcmp j (k * c)). qp; try lra; repeat match goal with E : j = _ |- _ => rewrite E in *; clear E end; lra.
    + exfalso. destruct L as [L|[_ L]]; [lra|]. pose proof (zcmp j 0). assert (0 <= inject_Z j)%Q by (qp; subst; lra). destruct K as [K|[_ K]]; [lra|]. pose proof (zcmp j (l * c)). pose proof (zcmp j (k * c)). qp; try lra; repeat match goal with E : j = _ |- _ => rewrite E in *; clear E end; lra.
  - intros [C2 X] E. pose proof (injlt 1 c C2). assert (j = - c). { pose proof (zcmp j (- c)). qp; auto; exfalso; lra. }
    subst j. assert (l = 0) by (destruct L as [[_ L]|[[L|L] _]]; auto; exfalso; lra). subst. destruct K as [K|K]; [lra|]. rewrite Z.mul_0_l in K. lra.
Qed.

Lemma twice_setup : forall o t v c d m r1 r2 r3, wf_rep t -> rsigned t = true -> wf_raw t v -> m <> round_round ->
  0 < c -> d <> 0 -> in_rep t d = true -> in_rep t (c * d) = true ->
  f_redenominate (denote o) t v (c * d) m = Ok r1 -> f_redenominate (denote o) t r1 d m = Ok r2 ->
  f_redenominate (denote o) t v d m = Ok r3 ->
  exists q j k l, value v = Some q /\ rounded m j (q * inject_Z (Z.abs (c * d))) /\
    rounded m k (inject_Z j / inject_Z c) /\ rounded m l (q * inject_Z (Z.abs (c * d)) / inject_Z c) /\ (r2 = r3 <-> k = l).
Proof.
  intros o t v c d m r1 r2 r3 W S V M C D ID IE H1 H2 H3.
  assert (CW : forall x, compares_well o m x) by (intros x; unfold compares_well; intros; contradiction).
  assert (SC : forall x, scale m x = Z.abs x) by (intros x; destruct m; auto; congruence).
  assert (E : c * d <> 0) by nia.
  destruct (redenominated o t v (c * d) m r1 W S V (CW _) IE E H1) as (q & j & A & B & (v1 & V1 & F) & G).
  destruct (redenominated o t r1 d m r2 W S (redenominate_wf _ _ _ _ _ _ W IE H1) (CW _) ID D H2) as (q1 & k & A1 & B1 & (v2 & V2 & F1) & G1).
  destruct (redenominated o t v d m r3 W S V (CW _) ID D H3) as (q' & l & A2 & B2 & (v3 & V3 & F2) & G2).
  rewrite V1 in A1. injection A1 as <-. rewrite A in A2. injection A2 as <-. rewrite SC in *.
  pose proof (inj_nz c ltac:(lia)) as NC. pose proof (inj_nz (Z.abs d) ltac:(lia)) as ND.
  assert (AB : (inject_Z (Z.abs (c * d)) == inject_Z c * inject_Z (Z.abs d))%Q).
  { rewrite Z.abs_mul, (Z.abs_eq c) by lia. now rewrite inject_Z_mult. }
  exists q, j, k, l. split; auto. split; auto. split; [|split].
  - apply rounded_qeq with (2 := G1). unfold is_over in F. rewrite F, AB. field. auto.
  - apply rounded_qeq with (2 := G2). rewrite AB. field. auto.
  - split.
    + intros EQ. apply (over_same r2 r3 v2 v3 k l (Z.abs d)); auto. lia.
    + intros ->. apply (over_unique r2 r3 v2 v3 l (Z.abs d)); auto. congruence.
Qed.

Lemma redenominate_monotone : forall o t v w d m r s p q, wf_rep t -> rsigned t = true -> wf_raw t v -> wf_raw t w ->
  compares_well o m v -> compares_well o m w -> m <> round_ceil -> in_rep t d = true -> 0 < d ->
  value v = Some p -> value w = Some q -> (p <= q)%Q ->
  f_redenominate (denote o) t v d m = Ok r -> f_redenominate (denote o) t w d m = Ok s -> num r <= num s.
Proof.
  intros o t v w d m r s p q W S V V' C C' M I D P Q L H H'. assert (D0 : d <> 0) by lia.
  destruct (redenominated o t v d m r W S V C I D0 H) as (p' & j & A & B & (v1 & V1 & F) & G).
  destruct (redenominated o t w d m s W S V' C' I D0 H') as (q' & k & A' & B' & (v2 & V2 & F') & G').
  rewrite P in A. injection A as <-. rewrite Q in A'. injection A' as <-.
  assert (SC : scale m d = d) by (destruct m; cbn; auto; lia). rewrite SC in *.
  pose proof (inj_nz d D0) as ND.
  destruct (value_num r v1 V1) as [_ N1]. destruct (value_num s v2 V2) as [_ N2]. rewrite B in N1. rewrite B' in N2. unfold is_over in *.
  assert (num r = j). { apply inject_Z_injective. rewrite <- N1, F. field. auto. }
  assert (num s = k). { apply inject_Z_injective. rewrite <- N2, F'. field. auto. }
  subst j k. apply (rounded_monotone m _ _ _ _ M G G'). apply Qmult_le_compat_r; auto. change 0%Q with (inject_Z 0). rewrite <- Zle_Qle. lia.
Qed.
