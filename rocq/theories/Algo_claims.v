(** Proofs of the statements in Props_Algo.v. *)

From Coq Require Import ZArith QArith List Bool Sorted Permutation Lia.
From Verif Require Import Machine Raw Ops Spec Fraction Tight_spec Mixed_spec Defined_spec Algo Algo_spec.
From Verif Require Import Machine_proofs Value_proofs Cmp_proofs Cmp_claims Algo_proofs.
Import ListNotations.
Open Scope Z_scope.

Lemma c15_positive_denominators : forall o t, wf_rep t -> rsigned t = true ->
  (forall a v, wf_raw t a -> 0 < den a -> p_cmp (denote o) t Lt (RR a a) = Ok v -> v = false) /\
  (forall a b v, wf_raw t a -> wf_raw t b -> 0 < den a -> 0 < den b ->
     p_cmp (denote o) t Lt (RR a b) = Ok true -> p_cmp (denote o) t Lt (RR b a) = Ok v -> v = false) /\
  (forall a b c v, wf_raw t a -> wf_raw t b -> wf_raw t c -> 0 < den a -> 0 < den b -> 0 < den c ->
     p_cmp (denote o) t Lt (RR a b) = Ok true -> p_cmp (denote o) t Lt (RR b c) = Ok true ->
     p_cmp (denote o) t Lt (RR a c) = Ok v -> v = true) /\
  (forall a b c u v, wf_raw t a -> wf_raw t b -> wf_raw t c -> 0 < den a -> 0 < den b -> 0 < den c ->
     p_cmp (denote o) t Lt (RR a b) = Ok false -> p_cmp (denote o) t Lt (RR b a) = Ok false ->
     p_cmp (denote o) t Lt (RR b c) = Ok false -> p_cmp (denote o) t Lt (RR c b) = Ok false ->
     p_cmp (denote o) t Lt (RR a c) = Ok u -> p_cmp (denote o) t Lt (RR c a) = Ok v ->
     u = false /\ v = false).
Proof.
  intros o t W S.
  assert (E : forall a b v, wf_raw t a -> wf_raw t b -> 0 < den a -> 0 < den b -> p_cmp (denote o) t Lt (RR a b) = Ok v ->
    exists x y, value a = Some x /\ value b = Some y /\ v = exact_cmp Lt x y).
  { intros a b v Wa Wb Pa Pb H. rewrite (value_defined a), (value_defined b) by lia. do 2 eexists. split; [reflexivity|split; [reflexivity|]].
    rewrite (denote_cmp o t Lt (RR a b) v W S (conj Wa Wb)); auto.
    - cbn [left_value right_value]. now rewrite !value_defined by lia.
    - right. right. left. now split. }
  repeat split.
  - intros a v Wa Pa H. destruct (E _ _ _ Wa Wa Pa Pa H) as [x [y [V1 [V2 ->]]]]. rewrite V1 in V2. injection V2 as <-.
    apply lt_bool_false. apply Qle_refl.
  - intros a b v Wa Wb Pa Pb H1 H2. destruct (E _ _ _ Wa Wb Pa Pb H1) as [x [y [V1 [V2 A]]]].
    destruct (E _ _ _ Wb Wa Pb Pa H2) as [y' [x' [V3 [V4 ->]]]]. rewrite V1 in V4. rewrite V2 in V3. injection V3 as <-. injection V4 as <-.
    symmetry in A. apply lt_bool in A. apply lt_bool_false. now apply Qlt_le_weak.
  - intros a b c v Wa Wb Wc Pa Pb Pc H1 H2 H3.
    destruct (E _ _ _ Wa Wb Pa Pb H1) as [x [y [V1 [V2 A]]]]. destruct (E _ _ _ Wb Wc Pb Pc H2) as [y' [z [V3 [V4 B]]]].
    destruct (E _ _ _ Wa Wc Pa Pc H3) as [x' [z' [V5 [V6 ->]]]].
    rewrite V2 in V3. rewrite V1 in V5. rewrite V4 in V6. injection V3 as <-. injection V5 as <-. injection V6 as <-.
    symmetry in A, B. apply lt_bool in A. apply lt_bool in B. apply lt_bool. now apply (Qlt_trans _ y).
  - destruct (E _ _ _ H H0 H2 H3 H5) as [x [y [V1 [V2 A]]]]. destruct (E _ _ _ H0 H H3 H2 H6) as [y1 [x1 [V3 [V4 B]]]].
    destruct (E _ _ _ H0 H1 H3 H4 H7) as [y2 [z [V5 [V6 C]]]]. destruct (E _ _ _ H1 H0 H4 H3 H8) as [z1 [y3 [V7 [V8 D]]]].
    destruct (E _ _ _ H H1 H2 H4 H9) as [x2 [z2 [V9 [V10 ->]]]]. 
    rewrite V1 in V4, V9. rewrite V2 in V3, V5, V8. rewrite V6 in V7, V10.
    injection V3 as <-. injection V4 as <-. injection V5 as <-. injection V7 as <-. injection V8 as <-. injection V9 as <-. injection V10 as <-.
    symmetry in A, B, C, D. apply lt_bool_false in A, B, C, D. apply lt_bool_false. now apply (Qle_trans _ y).
  - destruct (E _ _ _ H H0 H2 H3 H5) as [x [y [V1 [V2 A]]]]. destruct (E _ _ _ H0 H H3 H2 H6) as [y1 [x1 [V3 [V4 B]]]].
    destruct (E _ _ _ H0 H1 H3 H4 H7) as [y2 [z [V5 [V6 C]]]]. destruct (E _ _ _ H1 H0 H4 H3 H8) as [z1 [y3 [V7 [V8 D]]]].
    destruct (E _ _ _ H1 H H4 H2 H10) as [z2 [x2 [V9 [V10 ->]]]].
    rewrite V1 in V4, V10. rewrite V2 in V3, V5, V8. rewrite V6 in V7, V9.
    injection V3 as <-. injection V4 as <-. injection V5 as <-. injection V7 as <-. injection V8 as <-. injection V9 as <-. injection V10 as <-.
    symmetry in A, B, C, D. apply lt_bool_false in A, B, C, D. apply lt_bool_false. now apply (Qle_trans _ y).
Qed.

Lemma c88_decides : forall A o t xs qs (g : algo A) r, signed_rep t -> Forall (wf_raw t) xs -> stand_for xs qs ->
  orders o xs -> run (denote o) t xs g = Ok r -> run_rational qs g = r.
Proof. exact run_decides. Qed.

Lemma c88_sorts : forall o t xs qs n g is, signed_rep t -> Forall (wf_raw t) xs -> stand_for xs qs ->
  orders o xs -> length qs = n -> sorting n g -> run (denote o) t xs g = Ok is ->
  Permutation is (seq 0 n) /\ StronglySorted (fun i j => nth i qs 0 <= nth j qs 0)%Q is.
Proof.
  intros o t xs qs n g is SR WX ST OR L SO H. rewrite <- (run_decides _ o t xs qs g is SR WX ST OR H). now apply SO.
Qed.

Lemma c88_total : forall A o t xs (g : algo A), signed_rep t -> asks_below (length xs) g ->
  (forall x y, In x xs -> In y xs -> cross_fit (rmax t) x y) ->
  exists r, run (denote o) t xs g = Ok r.
Proof. exact run_total. Qed.

Lemma c88_total_default : forall A t xs qs (g : algo A), signed_rep t -> asks_below (length xs) g ->
  Forall (raw_bounded (rmax t)) xs -> stand_for xs qs ->
  (forall a b, In a qs -> In b qs -> common_fits (rmax t) a b) ->
  exists r, run (denote defaults) t xs g = Ok r.
Proof. exact run_total_defaults. Qed.

Lemma c88_insertion_sort : forall n,
  sorting n (insertion_sort (seq 0 n) Done) /\ asks_below n (insertion_sort (seq 0 n) Done).
Proof. intros n. split; [apply insertion_sorts|apply insertion_asks]. Qed.

Lemma c88_lower_bound : forall o t xs qs x lo n k, signed_rep t -> Forall (wf_raw t) xs -> stand_for xs qs -> orders o xs ->
  (forall i j, (lo <= i <= j)%nat -> (j < lo + n)%nat -> (nth i qs 0 <= nth j qs 0)%Q) ->
  run (denote o) t xs (lower_bound n x lo n) = Ok k -> splits qs x lo n k.
Proof.
  intros o t xs qs x lo n k SR WX ST OR HS H. rewrite <- (run_decides _ o t xs qs _ k SR WX ST OR H).
  apply lower_bound_splits; auto.
Qed.

Lemma c88_undefined_refuted : exists xs,
  run (denote defaults) int32 xs (lower_bound 3 3 0 3) = Ok 1%nat /\ xs = [mkRaw 1 1; mkRaw 0 0; mkRaw 3 1; mkRaw 3 1].
Proof. eexists. split; [|reflexivity]. vm_compute. reflexivity. Qed.

Lemma c88_fast_refuted : exists xs qs g, Forall (wf_raw int32) xs /\ stand_for xs qs /\ sorting (length qs) g /\
  run (denote Fast) int32 xs g = Ok [1; 0]%nat /\ (nth 0 qs 0 < nth 1 qs 0)%Q.
Proof.
  exists [mkRaw 1 (-2); mkRaw 2 1], [(-1 # 2)%Q; 2%Q], (insertion_sort (seq 0 2) Done).
  split; [repeat constructor|]. split; [repeat constructor; vm_compute; reflexivity|].
  split; [apply (insertion_sorts 2)|]. split; vm_compute; reflexivity.
Qed.

