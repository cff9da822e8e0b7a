(** Hashing.

    Models /repo/include/ieme/hash.hpp.  std::hash of an integral type is a
    parameter [h]; std::size_t has 64 bits. *)

From Coq Require Import ZArith.
From Verif Require Import Machine Raw Mixed.
Open Scope Z_scope.

(** hash.hpp:80-84: left ^ (right << 1) in std::size_t. *)
Definition hash_combine (left right : Z) : Z := Z.lxor left (wrap uint64 (right * 2)).

(** hash.hpp:60-65, also hash.hpp:67-71 and 93-105 *)
Definition hash_raw (h : Z -> Z) (v : raw) : Z := hash_combine (h (num v)) (h (den v)).

(** hash.hpp:73-78 and 107-112; [hw] is std::hash<WRep>, [hf] std::hash<FRep>. *)
Definition hash_mixed (hw hf : Z -> Z) (m : mixed) : Z :=
  hash_combine (hw (whole m)) (hash_raw hf (fractional m)).

(** std::hash of an integral type in libstdc++ and libc++: the value converted to
    std::size_t. Used at hash.hpp:63-64 and 76. *)
Definition std_hash (v : Z) : Z := cast uint64 v.
