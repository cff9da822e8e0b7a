(** Proofs of the statements in Props_Uround.v. *)

From Coq Require Import ZArith QArith Bool Lia List.
From Verif Require Import Machine Raw Ops Spec Fraction Fmath Fmath_spec Stack_spec Outcome_spec Uround_spec.
From Verif Require Import Machine_proofs Value_proofs Ops_proofs Fmath_proofs Fmath_claims Uround_proofs.
Import ListNotations.
Open Scope Z_scope.

Lemma c107_whole : forall t v k, wf_rep t -> rsigned t = false -> wf_raw t v ->
  (f_trunc t v = Ok k <-> den v <> 0 /\ k = num v / den v) /\
  (f_floor t v = Ok k <-> den v <> 0 /\ k = num v / den v) /\
  (f_ceil t v = Ok k <-> den v <> 0 /\ k = num v / den v + (if num v mod den v =? 0 then 0 else 1)).
Proof. intros t v k W U V. split; [now apply trunc_u|]. split; [now apply floor_u|now apply ceil_u]. Qed.

Lemma c107_round : forall o t v k, wf_rep t -> rsigned t = false -> wf_raw t v ->
  (f_round (denote o) t v = Ok k <-> rounds o t v k).
Proof. intros. now apply round_u. Qed.

Lemma c107_round_nearest : forall o t v k, wf_rep t -> rsigned t = false -> wf_raw t v ->
  on_lcm o = true \/ 2 * (den v / cancelled o v) <= 2 ^ rbits t ->
  f_round (denote o) t v = Ok k -> exists q, value v = Some q /\ is_round k q.
Proof. intros o t v k W U V C H. apply round_u in H; auto. now apply (rounds_exact o t). Qed.

Lemma c107_fast_round_refuted : forall o, on_lcm o = false -> exists v k q,
  wf_raw uint32 v /\ f_round (denote o) uint32 v = Ok k /\ value v = Some q /\ ~ is_round k q.
Proof.
  intros o F. exists (mkRaw 2147483653 2147483655), 0. eexists. split; [split; reflexivity|]. split; [|split; [reflexivity|]].
  - apply round_u; try reflexivity; [unfold wf_rep; cbn; lia|split; reflexivity|].
    unfold rounds. rewrite F. split; [discriminate|]. split; [discriminate|]. unfold cancelled. destruct (layered o); vm_compute; reflexivity.
  - unfold is_round. cbn [num den]. intros [_ H]. vm_compute in H. discriminate.
Qed.

Lemma c107_redenominate : forall o t v d m r, wf_rep t -> rsigned t = false -> wf_raw t v -> in_rep t d = true ->
  f_redenominate (denote o) t v d m = Ok r <->
  den v <> 0 /\ den r = d /\
  match m with
  | round_trunc | round_floor => num r = num (scaled o t v d) / den (scaled o t v d)
  | round_ceil => num r = num (scaled o t v d) / den (scaled o t v d) + (if num (scaled o t v d) mod den (scaled o t v d) =? 0 then 0 else 1)
  | round_round => rounds o t (scaled o t v d) (num r)
  end.
Proof. intros. now apply redenominate_u. Qed.

Lemma c107_redenominate_exact : forall o t v d m r q, wf_rep t -> rsigned t = false -> wf_raw t v -> in_rep t d = true ->
  value v = Some q -> num (lowest (effect (input_modes o)) v) * d <= rmax t ->
  f_redenominate (denote o) t v d m = Ok r ->
  den r = d /\
  match m with
  | round_trunc => is_trunc (num r) (q * inject_Z d)
  | round_floor => is_floor (num r) (q * inject_Z d)
  | round_ceil => is_ceil (num r) (q * inject_Z d)
  | round_round =>
      on_lcm o = true \/ 2 * den (scaled o t v d) <= 2 ^ rbits t -> is_round (num r) (q * inject_Z d)
  end.
Proof.
  intros o t v d m r q W U V D VQ F H. apply redenominate_u in H; auto. destruct H as (N & DR & H). split; auto.
  destruct (scaled_exact o t W U v d q V D VQ F) as (s & VS & ES). destruct (scaled_u o t W U v d V D N) as (_ & WS & DS).
  destruct m.
  - assert (T : f_trunc t (scaled o t v d) = Ok (num r)) by (apply trunc_u; auto).
    destruct (f_trunc_spec t _ _ W WS T) as (s' & VS' & I). rewrite VS in VS'. injection VS' as <-.
    unfold is_trunc in *. now rewrite <- ES.
  - assert (T : f_ceil t (scaled o t v d) = Ok (num r)) by (apply ceil_u; auto).
    destruct (c29_ceil_unsigned t _ _ W U WS T) as (s' & VS' & I). rewrite VS in VS'. injection VS' as <-.
    unfold is_ceil in *. now rewrite <- ES.
  - assert (T : f_floor t (scaled o t v d) = Ok (num r)) by (apply floor_u; auto).
    destruct (c28_floor_unsigned t _ _ W U WS T) as (s' & VS' & I). rewrite VS in VS'. injection VS' as <-.
    unfold is_floor in *. now rewrite <- ES.
  - intros C. destruct (rounds_exact o t W U (scaled o t v d) (num r)) as (s' & VS' & I); auto.
    { destruct C as [C|C]; auto. right. apply Z.le_trans with (2 * den (scaled o t v d)); auto.
      apply Z.mul_le_mono_nonneg_l; [lia|]. destruct (gcd_facts t W U _ WS DS) as (GP & _ & (b & B1 & B2 & B3) & _).
      unfold cancelled. destruct (layered o); rewrite ?Z.div_1_r; lia. }
    rewrite VS in VS'. injection VS' as <-. unfold is_round in *. now rewrite <- ES.
Qed.

Lemma c107_redenominate_refuted : forall m, exists r,
  f_redenominate (denote defaults) uint32 (mkRaw 3 4) 2147483648 m = Ok r /\
  same_value (value r) (Some (1 # 4)).
Proof. intros []; (eexists; split; [vm_compute; reflexivity|vm_compute; reflexivity]). Qed.

