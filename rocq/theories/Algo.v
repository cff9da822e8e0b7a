(** Client algorithms that reach a list of fractions only through comparisons:
    sorting, searching, ordered containers, minimum and maximum.

    Such an algorithm is a tree: it stops with an answer, or compares two elements
    by one of the operators of /repo/include/ieme/fraction.hpp:690-718 and goes on
    according to the result.  Simplification: elements are named by their position
    in the original list, so moving them is not a step; the trees have finite
    depth, of any size. *)

From Coq Require Import ZArith List Bool.
From Verif Require Import Machine Raw Ops Fraction.
Import ListNotations.
Open Scope Z_scope.

(** Client code that sees fractions only through the comparisons at
    fraction.hpp:690-718: it returns, or compares the elements at two positions and
    continues with the answer. *)
Inductive algo (A : Type) : Type :=
| Done (a : A)
| Ask (op : cmp_op) (i j : nat) (k : bool -> algo A).
Arguments Done {A} a.
Arguments Ask {A} op i j k.

(** Each comparison is one call of fraction.hpp:690-718 between two fractions of
    the same type. *)
Fixpoint run {A : Type} (p : policy) (t : rep) (xs : list raw) (g : algo A) : res A :=
  match g with
  | Done a => Ok a
  | Ask op i j k =>
      do b <- f_cmp p t t op (RR (nth i xs (mkRaw 0 1)) (nth j xs (mkRaw 0 1)));
      run p t xs (k b)
  end.

(** Insertion sort by [<], as std::sort does for short ranges: an element is placed
    before the first one that is greater. Client code of fraction.hpp:690-718. *)
Fixpoint insert_by (i : nat) (l : list nat) (k : list nat -> algo (list nat)) : algo (list nat) :=
  match l with
  | [] => k [i]
  | j :: r => Ask Lt i j (fun b => if b then k (i :: l) else insert_by i r (fun s => k (j :: s)))
  end.

(** Client code of fraction.hpp:690-718: the elements are inserted one after the other.
    *)
Fixpoint insertion_sort (is : list nat) (k : list nat -> algo (list nat)) : algo (list nat) :=
  match is with
  | [] => k []
  | i :: r => insertion_sort r (fun s => insert_by i s k)
  end.

(** std::lower_bound on a range of [n] sorted elements starting at position [lo]: the
    first position whose element is not less than element [x]. Client code of
    fraction.hpp:690-718. *)
Fixpoint lower_bound (fuel : nat) (x lo n : nat) : algo nat :=
  match fuel with
  | O => Done lo
  | S f =>
      match n with
      | O => Done lo
      | _ =>
          let half := Nat.div2 n in
          Ask Lt (lo + half) x (fun b =>
            if b then lower_bound f x (lo + half + 1) (n - half - 1) else lower_bound f x lo half)
      end
  end.
