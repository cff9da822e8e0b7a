(** Proofs of the statements in Props_Table.v. *)

From Coq Require Import ZArith QArith List Bool Lia.
From Verif Require Import Machine Raw Ops Spec Fraction Hash Table Table_spec.
From Verif Require Import Machine_proofs Value_proofs Ops_proofs Algebra_proofs Fraction_proofs Literals_proofs Cmp_claims Table_proofs.
Import ListNotations.
Open Scope Z_scope.

Lemma c105_set : forall h o t n l T k b q,
  wf_rep t -> rsigned t = true -> Forall (keys t) l -> key t k -> value k = Some q ->
  act_all h (denote o) t (empty_table (S n)) l = Ok T ->
  contains h (denote o) t T k = Ok b -> (b = true <-> set_of l q).
Proof.
  intros h o t n l T k b q W SG F K V A C. destruct (empty_good h t (S n)) as [G E]; [lia|].
  destruct (act_all_good h o t W SG l (empty_table (S n)) (fun _ => False) T) as [G' SH]; auto.
  { intros x. split; [intros []|]. intros (v & HV & _). now apply E in HV. }
  now apply (contains_shows h o t W SG T _ k b q).
Qed.

Lemma c105_iterate : forall h o t n l T,
  wf_rep t -> rsigned t = true -> Forall (keys t) l ->
  act_all h (denote o) t (empty_table (S n)) l = Ok T ->
  (forall q, set_of l q <-> exists v, In v (elements T) /\ is v q) /\
  (forall v, In v (elements T) -> key t v) /\
  (forall a b v w, nth_error (elements T) a = Some v -> nth_error (elements T) b = Some w ->
     same_value (value v) (value w) -> a = b).
Proof.
  intros h o t n l T W SG F A. destruct (empty_good h t (S n)) as [G E]; [lia|].
  destruct (act_all_good h o t W SG l (empty_table (S n)) (fun _ => False) T) as [G' SH]; auto.
  { intros x. split; [intros []|]. intros (v & HV & _). now apply E in HV. }
  assert (KE : forall v, In v (elements T) -> key t v).
  { intros v V. apply (has_key h t T v G'). now apply (has_elements h t). }
  split; [|split; [exact KE|]].
  - intros q. rewrite (SH q). split; intros (v & HV & IV); exists v; split; auto; now apply (has_elements h t).
  - intros a b v w NA NB SV. pose proof (elements_nodup h t T G') as ND.
    assert (v = w) as <-.
    { destruct (KE v) as (_ & C1 & _); [now apply nth_error_In in NA|].
      destruct (KE w) as (_ & C2 & _); [now apply nth_error_In in NB|]. now apply canonical_unique. }
    rewrite NoDup_nth_error in ND. apply ND; [|congruence]. apply nth_error_Some. congruence.
Qed.

Lemma c105_defined : forall h o t n l B k,
  wf_rep t -> rsigned t = true -> Forall (keys t) l -> Forall (small_keys B) l -> B <= rmax t -> B * B <= rmax t ->
  key t k -> Z.abs (num k) <= B -> Z.abs (den k) <= B ->
  exists T b, act_all h (denote o) t (empty_table (S n)) l = Ok T /\ contains h (denote o) t T k = Ok b.
Proof.
  intros h o t n l B k W SG F FS B1 B2 K KN KD. destruct (empty_good h t (S n)) as [G E]; [lia|].
  assert (SH : shows h (empty_table (S n)) (fun _ => False)).
  { intros x. split; [intros []|]. intros (v & HV & _). now apply E in HV. }
  destruct (act_total h o t W SG B l (empty_table (S n)) (fun _ => False)) as (T & A & AS); auto.
  { intros v HV. now apply E in HV. }
  destruct (act_all_good h o t W SG l (empty_table (S n)) (fun _ => False) T) as [[PG G'] _]; auto.
  destruct (G' (slot h (buckets T) k)) as (_ & FK & SL); [now apply slot_lt|].
  destruct (find_small o t W B k (bucket T (slot h (buckets T) k))) as [b C]; auto; [now split| |].
  { apply Forall_forall. intros x X. apply AS. unfold has. now rewrite (SL x X). }
  exists T, b. split; auto.
Qed.

Lemma c105_unreduced_refuted :
  f_cmp (denote defaults) int32 int32 Eq (RR (mkRaw 1 2) (mkRaw 2 4)) = Ok true /\
  exists T, act_all std_hash (denote defaults) int32 (empty_table 8) [Insert (mkRaw 1 2)] = Ok T /\
  contains std_hash (denote defaults) int32 T (mkRaw 2 4) = Ok false /\
  exists T', insert std_hash (denote defaults) int32 T (mkRaw 2 4) = Ok T' /\ length (elements T') = 2%nat.
Proof.
  split; [vm_compute; reflexivity|]. eexists. split; [vm_compute; reflexivity|].
  split; [vm_compute; reflexivity|]. eexists. split; vm_compute; reflexivity.
Qed.

Lemma c105_undefined : forall h o t T k,
  wf_rep t -> rsigned t = true -> wf_raw t k -> value k = None ->
  (forall i v, In v (bucket T i) -> wf_raw t v) ->
  contains h (denote o) t T k <> Ok true /\
  (forall T', insert h (denote o) t T k = Ok T' -> bucket T' (slot h (buckets T) k) = k :: bucket T (slot h (buckets T) k)).
Proof.
  intros h o t T k W SG WK V WT.
  assert (N : contains h (denote o) t T k <> Ok true).
  { unfold contains. specialize (WT (slot h (buckets T) k)).
    induction (bucket T (slot h (buckets T) k)) as [|x l IH]; cbn [find_in]; [discriminate|]. intros H. inv_bind H.
    destruct a; [|apply IH; auto; intros v I; apply WT; now right].
    rewrite f_cmp_self in E. apply c12_equality_exact in E; auto; [|split; auto; apply WT; now left].
    destruct E as [E _]. destruct (E eq_refl) as (p & q & _ & R & _). cbn [right_value] in R. congruence. }
  split; auto. intros T' H. unfold insert in H. inv_bind H. destruct a; [congruence|]. injection H as <-.
  unfold put. cbn [bucket]. now rewrite Nat.eqb_refl.
Qed.

