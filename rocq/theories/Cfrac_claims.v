(** Proofs of the statements in Props_Cfrac.v. *)

From Coq Require Import ZArith QArith List Bool Lia.
From Verif Require Import Machine Raw Ops Spec Fraction Fmath Fmath_spec Mixed_spec Cfrac Cfrac_spec.
From Verif Require Import Machine_proofs Value_proofs Ops_proofs Algebra_proofs Literals_proofs Defined_proofs Cfrac_proofs.
Import ListNotations.
Open Scope Z_scope.
Lemma c122_total : forall o t v q fuel, signed_rep t -> raw_bounded (rmax t) v -> value v = Some q ->
  2 * Z.log2 (Z.abs (den v)) + 2 <= Z.of_nat fuel ->
  exists l, quotients (denote o) t fuel v = Some (Ok l) /\ is_cf q l /\
    Z.of_nat (length l) <= 2 * Z.log2 (Z.abs (den v)) + 2.
Proof.
  intros o t v q fuel SR B V F. unfold value in V. destruct (Z.eqb_spec (den v) 0) as [|D]; [discriminate|]. inversion V; subst.
  destruct (euclid_exists (num v) (den v) D) as [l [E L]]. exists l. split; [|split].
  - apply (quotients_run o t _ _ _ E); auto. lia.
  - now apply euclid_cf.
  - exact L.
Qed.

Lemma c122_only : forall o t v q fuel r, signed_rep t -> raw_bounded (rmax t) v -> value v = Some q ->
  quotients (denote o) t fuel v = Some r -> exists l, r = Ok l /\ is_cf q l.
Proof.
  intros o t v q fuel r SR B V H.
  destruct (c122_total o t v q (fuel + Z.to_nat (2 * Z.log2 (Z.abs (den v)) + 2)) SR B V) as [l [Q [C _]]].
  { pose proof (Z.log2_nonneg (Z.abs (den v))). lia. }
  rewrite (quotients_more _ _ _ _ _ H) in Q by lia. inversion Q; subst. eauto.
Qed.

Lemma c122_value : forall q l, is_cf q l -> (cf_value l == q)%Q /\ forall l', is_cf q l' -> l' = l.
Proof. intros q l H. split; [now apply cf_is_value|]. intros l' H'. symmetry. exact (cf_unique q l H l' H'). Qed.

Lemma c122_same_iff : forall o o' t t' v v' q q' fuel fuel' l l', signed_rep t -> signed_rep t' ->
  raw_bounded (rmax t) v -> raw_bounded (rmax t') v' -> value v = Some q -> value v' = Some q' ->
  quotients (denote o) t fuel v = Some (Ok l) -> quotients (denote o') t' fuel' v' = Some (Ok l') ->
  l = l' <-> (q == q')%Q.
Proof.
  intros o o' t t' v v' q q' fuel fuel' l l' S S' B B' V V' H H'.
  destruct (c122_only _ _ _ _ _ _ S B V H) as [k [E C]]. destruct (c122_only _ _ _ _ _ _ S' B' V' H') as [k' [E' C']].
  inversion E; inversion E'; subst k k'. split.
  - intros ->. rewrite <- (cf_is_value _ _ C), <- (cf_is_value _ _ C'). reflexivity.
  - intros Q. apply (cf_unique q' l); [exact (is_cf_proper _ _ C _ Q)|exact C'].
Qed.

Lemma c122_rebuild : forall o t n d l, signed_rep t -> d <> 0 -> Z.gcd n d = 1 -> Z.abs n <= rmax t -> Z.abs d <= rmax t ->
  is_cf (inject_Z n / inject_Z d) l ->
  rebuild (denote o) t l = Ok (mkRaw n d) \/ rebuild (denote o) t l = Ok (mkRaw (- n) (- d)).
Proof.
  intros o t n d l SR D G Bn Bd C. destruct (euclid_exists n d D) as [k [E _]].
  rewrite (cf_unique _ _ C _ (euclid_cf _ _ _ E D)).
  destruct (rebuild_run o t n d k E SR D G Bn Bd) as [s [[->| ->] [R _]]]; rewrite R; unfold upto; [left|right]; f_equal; f_equal; ring.
Qed.

Lemma c122_round_trip : forall o o' t v fuel l, signed_rep t -> raw_bounded (rmax t) v -> den v <> 0 -> canonical v ->
  output_canonical o' = true -> quotients (denote o) t fuel v = Some (Ok l) -> rebuild (denote o') t l = Ok v.
Proof.
  intros o o' t v fuel l SR B D C O H. pose proof B as [B1 B2].
  destruct C as [[_ C]|[C1 C2]]; [contradiction|].
  assert (V : value v = Some (inject_Z (num v) / inject_Z (den v))%Q) by (unfold value; apply Z.eqb_neq in D as ->; reflexivity).
  destruct (c122_only _ _ _ _ _ _ SR B V H) as [k [E K]]. inversion E; subst k.
  destruct (euclid_exists (num v) (den v) D) as [k [EL _]].
  rewrite (cf_unique _ _ K _ (euclid_cf _ _ _ EL D)).
  destruct (rebuild_run o' t _ _ k EL SR D C2 B1 B2) as [s [U [R P]]]. rewrite R. specialize (P O).
  assert (S1 : s = 1) by (destruct U as [->| ->]; lia). subst s. unfold upto. rewrite !Z.mul_1_l. now destruct v.
Qed.

Lemma c122_least_refuted : exists v w q r, wf_raw int32 v /\ wf_raw int32 w /\ value v = Some q /\ value w = Some r /\
  quotients (denote defaults) int32 1 v = Some (UB LibPrecond) /\ quotients (denote Fast) int32 1 w = Some (UB Overflow).
Proof.
  exists (mkRaw (rmin int32) 3), (mkRaw (rmin int32) (-1)). eexists. eexists.
  split; [split; reflexivity|]. split; [split; reflexivity|]. split; [reflexivity|]. split; [reflexivity|].
  split; reflexivity.
Qed.

