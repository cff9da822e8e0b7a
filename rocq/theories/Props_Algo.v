(** Property theorems: sorting, searching and ordered containers of fractions.

    Each is closed by the lemma of the same name in Algo_claims.v. *)

From Coq Require Import ZArith QArith List Bool Sorted Permutation Lia.
From Verif Require Import Machine Raw Ops Spec Fraction Tight_spec Mixed_spec Defined_spec Algo Algo_spec.
From Verif Require Import Machine_proofs Value_proofs Cmp_proofs Cmp_claims Algo_proofs.
Import ListNotations.
Open Scope Z_scope.
From Verif Require Import Algo_claims.

(** C15: under every policy, on fractions with positive denominators. *)
Theorem C15_positive_denominators : forall o t, wf_rep t -> rsigned t = true ->
  (forall a v, wf_raw t a -> 0 < den a -> p_cmp (denote o) t Lt (RR a a) = Ok v -> v = false) /\
  (forall a b v, wf_raw t a -> wf_raw t b -> 0 < den a -> 0 < den b ->
     p_cmp (denote o) t Lt (RR a b) = Ok true -> p_cmp (denote o) t Lt (RR b a) = Ok v -> v = false) /\
  (forall a b c v, wf_raw t a -> wf_raw t b -> wf_raw t c -> 0 < den a -> 0 < den b -> 0 < den c ->
     p_cmp (denote o) t Lt (RR a b) = Ok true -> p_cmp (denote o) t Lt (RR b c) = Ok true ->
     p_cmp (denote o) t Lt (RR a c) = Ok v -> v = true) /\
  (forall a b c u v, wf_raw t a -> wf_raw t b -> wf_raw t c -> 0 < den a -> 0 < den b -> 0 < den c ->
     p_cmp (denote o) t Lt (RR a b) = Ok false -> p_cmp (denote o) t Lt (RR b a) = Ok false ->
     p_cmp (denote o) t Lt (RR b c) = Ok false -> p_cmp (denote o) t Lt (RR c b) = Ok false ->
     p_cmp (denote o) t Lt (RR a c) = Ok u -> p_cmp (denote o) t Lt (RR c a) = Ok v ->
     u = false /\ v = false).
Proof. exact c15_positive_denominators. Qed.
Print Assumptions C15_positive_denominators.

Example c15_positive_denominators_case :
  p_cmp (denote Fast) int32 Lt (RR (mkRaw 1 3) (mkRaw 2 4)) = Ok true /\
  p_cmp (denote Fast) int32 Lt (RR (mkRaw 2 4) (mkRaw 5 7)) = Ok true /\
  p_cmp (denote Fast) int32 Lt (RR (mkRaw 1 3) (mkRaw 5 7)) = Ok true.
Proof. repeat split; vm_compute; reflexivity. Qed.

(** C88: an algorithm that reaches a list of fractions only through the six comparisons
    gives the answer it gives on the rational numbers they stand for. *)
Theorem C88_decides : forall A o t xs qs (g : algo A) r, signed_rep t -> Forall (wf_raw t) xs -> stand_for xs qs ->
  orders o xs -> run (denote o) t xs g = Ok r -> run_rational qs g = r.
Proof. exact c88_decides. Qed.
Print Assumptions C88_decides.

(** C88: so a sorting algorithm sorts fractions by value. *)
Theorem C88_sorts : forall o t xs qs n g is, signed_rep t -> Forall (wf_raw t) xs -> stand_for xs qs ->
  orders o xs -> length qs = n -> sorting n g -> run (denote o) t xs g = Ok is ->
  Permutation is (seq 0 n) /\ StronglySorted (fun i j => nth i qs 0 <= nth j qs 0)%Q is.
Proof. exact c88_sorts. Qed.
Print Assumptions C88_sorts.

(** C88: it meets no undefined behaviour under any policy if the cross products of any
    two elements fit. *)
Theorem C88_total : forall A o t xs (g : algo A), signed_rep t -> asks_below (length xs) g ->
  (forall x y, In x xs -> In y xs -> cross_fit (rmax t) x y) ->
  exists r, run (denote o) t xs g = Ok r.
Proof. exact c88_total. Qed.
Print Assumptions C88_total.

(** C88: under the default policy, if any two elements can be written over their least
    common denominator. *)
Theorem C88_total_default : forall A t xs qs (g : algo A), signed_rep t -> asks_below (length xs) g ->
  Forall (raw_bounded (rmax t)) xs -> stand_for xs qs ->
  (forall a b, In a qs -> In b qs -> common_fits (rmax t) a b) ->
  exists r, run (denote defaults) t xs g = Ok r.
Proof. exact c88_total_default. Qed.
Print Assumptions C88_total_default.

(** C88: there are such algorithms: insertion sort sorts any number of elements, and
    compares only elements of the list. *)
Theorem C88_insertion_sort : forall n,
  sorting n (insertion_sort (seq 0 n) Done) /\ asks_below n (insertion_sort (seq 0 n) Done).
Proof. exact c88_insertion_sort. Qed.
Print Assumptions C88_insertion_sort.

(** C88: binary search finds the position of a fraction in a sorted range of fractions,
    of any size: those before it are less, those from it on are not. *)
Theorem C88_lower_bound : forall o t xs qs x lo n k, signed_rep t -> Forall (wf_raw t) xs -> stand_for xs qs -> orders o xs ->
  (forall i j, (lo <= i <= j)%nat -> (j < lo + n)%nat -> (nth i qs 0 <= nth j qs 0)%Q) ->
  run (denote o) t xs (lower_bound n x lo n) = Ok k -> splits qs x lo n k.
Proof. exact c88_lower_bound. Qed.
Print Assumptions C88_lower_bound.

Example c88_case :
  let xs := [mkRaw 3 (-4); mkRaw 5 7; mkRaw (-6) 8; mkRaw 0 (-1); mkRaw 10 20] in
  stand_for xs [(-3 # 4)%Q; (5 # 7)%Q; (-3 # 4)%Q; 0%Q; (1 # 2)%Q] /\ orders defaults xs /\
  run (denote defaults) int32 xs (insertion_sort (seq 0 5) Done) = Ok [2; 0; 3; 4; 1]%nat /\
  run (denote defaults) int32 [mkRaw 1 2; mkRaw 2 4; mkRaw 2 3; mkRaw 7 8; mkRaw 3 5] (lower_bound 4 4 0 4) = Ok 2%nat.
Proof.
  cbv zeta. split; [repeat constructor; vm_compute; reflexivity|]. split; [now left|].
  split; vm_compute; reflexivity.
Qed.

(** C88: a single undefined fraction spoils a search: in 1, 0/0, 3 the position of 3 is
    not found. *)
Theorem C88_undefined_refuted : exists xs,
  run (denote defaults) int32 xs (lower_bound 3 3 0 3) = Ok 1%nat /\ xs = [mkRaw 1 1; mkRaw 0 0; mkRaw 3 1; mkRaw 3 1].
Proof. exact c88_undefined_refuted. Qed.
Print Assumptions C88_undefined_refuted.

(** C88: and fast sorts 1/-2 behind 2. *)
Theorem C88_fast_refuted : exists xs qs g, Forall (wf_raw int32) xs /\ stand_for xs qs /\ sorting (length qs) g /\
  run (denote Fast) int32 xs g = Ok [1; 0]%nat /\ (nth 0 qs 0 < nth 1 qs 0)%Q.
Proof. exact c88_fast_refuted. Qed.
Print Assumptions C88_fast_refuted.
