(** Specification for C88. *)

From Coq Require Import ZArith QArith List Bool Sorted Permutation.
From Verif Require Import Machine Raw Ops Spec Algo.
Import ListNotations.

(** The same algorithm on a list of rational numbers. *)
Fixpoint run_rational {A : Type} (qs : list Q) (g : algo A) : A :=
  match g with
  | Done a => a
  | Ask op i j k => run_rational qs (k (exact_cmp op (nth i qs 0%Q) (nth j qs 0%Q)))
  end.

(** Every comparison the algorithm may make is between elements of a list of [n]. *)
Fixpoint asks_below {A : Type} (n : nat) (g : algo A) : Prop :=
  match g with
  | Done _ => True
  | Ask _ i j k => (i < n)%nat /\ (j < n)%nat /\ forall b, asks_below n (k b)
  end.

(** Fractions that stand for the numbers of a list. *)
Definition stand_for (xs : list raw) (qs : list Q) : Prop :=
  Forall2 (fun x q => same_value (value x) (Some q)) xs qs.

(** The policy orders two such fractions by value. *)
Definition orders (o : ops) (xs : list raw) : Prop :=
  built_on_safe o = true \/ normalises_inputs o = true \/ Forall (fun x => (0 < den x)%Z) xs.

(** An algorithm that sorts every list of [n] rational numbers: the answer lists the
    positions in order of the numbers. *)
Definition sorting (n : nat) (g : algo (list nat)) : Prop :=
  forall qs, length qs = n ->
    Permutation (run_rational qs g) (seq 0 n) /\
    StronglySorted (fun i j => nth i qs 0 <= nth j qs 0)%Q (run_rational qs g).

(** Position [k] splits [n] sorted numbers from position [lo]: below it they are less
    than number [x], from it on they are not. *)
Definition splits (qs : list Q) (x lo n k : nat) : Prop :=
  (lo <= k <= lo + n)%nat /\
  (forall i, (lo <= i < k)%nat -> (nth i qs 0 < nth x qs 0)%Q) /\
  (forall i, (k <= i < lo + n)%nat -> (nth x qs 0 <= nth i qs 0)%Q).
