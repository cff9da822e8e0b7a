(** Client code: fractions as keys of std::unordered_set.

    A table of buckets ([unord.req]) that finds its elements by std::hash of a fraction
    (/repo/include/ieme/hash.hpp:93-105, here hash.hpp:60-71) and by operator==
    (/repo/include/ieme/fraction.hpp:690-718).  Simplification: an element is stored in
    the bucket numbered by its hash modulo the number of buckets, as the standard
    library's containers do, and a bucket is a list; [h] is std::hash of the integral
    type. *)

From Coq Require Import ZArith List Bool.
From Verif Require Import Machine Raw Ops Fraction Hash.
Import ListNotations.
Open Scope Z_scope.

(** An unordered container that uses std::hash of hash.hpp:100-105 and == of
    fraction.hpp:690-718. *)
Record table : Type := mkTable { buckets : nat; bucket : nat -> list raw }.

(** hash.hpp:98-105: the bucket of a key. *)
Definition slot (h : Z -> Z) (n : nat) (v : raw) : nat := Z.to_nat (hash_raw h v mod Z.of_nat n).

(** A new container, with keys hashed by hash.hpp:100-105. *)
Definition empty_table (n : nat) : table := mkTable n (fun _ => []).
(** Storing a key in its bucket, hash.hpp:100-105. *)
Definition put (h : Z -> Z) (T : table) (v : raw) : table :=
  let i := slot h (buckets T) v in
  mkTable (buckets T) (fun j => if Nat.eqb j i then v :: bucket T i else bucket T j).
(** All keys, in any order: client code of hash.hpp:100-105. *)
Definition elements (T : table) : list raw := flat_map (bucket T) (seq 0 (buckets T)).

(** Searching a bucket: element == key, fraction.hpp:690-718. *)
Fixpoint find_in (p : policy) (t : rep) (k : raw) (l : list raw) : res bool :=
  match l with
  | [] => Ok false
  | x :: l => do b <- f_cmp p t t Eq (RR x k); if b then Ok true else find_in p t k l
  end.
(** Removing a key from a bucket: element == key, fraction.hpp:690-718. *)
Fixpoint remove_in (p : policy) (t : rep) (k : raw) (l : list raw) : res (list raw) :=
  match l with
  | [] => Ok []
  | x :: l =>
      do b <- f_cmp p t t Eq (RR x k);
      if b then Ok l else do l' <- remove_in p t k l; Ok (x :: l')
  end.

(** contains, insert, erase (by key) and rehash. Through hash.hpp:100-105 and
    fraction.hpp:690-718. *)
Definition contains (h : Z -> Z) (p : policy) (t : rep) (T : table) (k : raw) : res bool :=
  find_in p t k (bucket T (slot h (buckets T) k)).
(** Through hash.hpp:100-105 and fraction.hpp:690-718. *)
Definition insert (h : Z -> Z) (p : policy) (t : rep) (T : table) (k : raw) : res table :=
  do b <- contains h p t T k; Ok (if b then T else put h T k).
(** Through hash.hpp:100-105 and fraction.hpp:690-718. *)
Definition erase (h : Z -> Z) (p : policy) (t : rep) (T : table) (k : raw) : res table :=
  let i := slot h (buckets T) k in
  do l <- remove_in p t k (bucket T i);
  Ok (mkTable (buckets T) (fun j => if Nat.eqb j i then l else bucket T j)).
(** Every key is stored again, hash.hpp:100-105. *)
Definition rehash (h : Z -> Z) (n : nat) (T : table) : table :=
  fold_left (put h) (elements T) (empty_table (S n)).

(** Calls of client code, through hash.hpp:100-105 and fraction.hpp:690-718. *)
Inductive action : Type :=
| Insert (v : raw)
| Erase (v : raw)
| Rehash (n : nat).
(** One call, through hash.hpp:100-105 and fraction.hpp:690-718. *)
Definition act (h : Z -> Z) (p : policy) (t : rep) (T : table) (a : action) : res table :=
  match a with
  | Insert v => insert h p t T v
  | Erase v => erase h p t T v
  | Rehash n => Ok (rehash h n T)
  end.
(** Calls one after the other, through hash.hpp:100-105 and fraction.hpp:690-718. *)
Fixpoint act_all (h : Z -> Z) (p : policy) (t : rep) (T : table) (l : list action) : res table :=
  match l with
  | [] => Ok T
  | a :: l => do T' <- act h p t T a; act_all h p t T' l
  end.
