(** Streams whose locale groups digits.

    Models /repo/include/ieme/raw_fraction.hpp:57-71 and fraction.hpp:499-511 on streams
    imbued with a locale, such as de_DE or en_US, whose numpunct facet has a thousands
    separator.  Other simplifications as in Stream.v; the ctype facet is the classic one.
    A failed read may leave more unread in some implementations, which stop at a
    separator out of place. *)

From Coq Require Import ZArith List Bool.
From Verif Require Import Machine Raw Stream.
Import ListNotations.
Open Scope Z_scope.

(** numpunct::grouping and numpunct::thousands_sep ([facet.numpunct.virtuals]). Of the
    locale of the streams at raw_fraction.hpp:57-71. *)
Record punct : Type := mkPunct { grouping : list Z; separator : Z }.
(** The locale "C", for the streams at raw_fraction.hpp:57-71. *)
Definition classic : punct := mkPunct [] 44.

(** The size of group [i] from the right; the last size repeats; a size that is not
    positive or is CHAR_MAX (127) means that there is no limit. For the numbers at
    raw_fraction.hpp:61, 68 and 70. *)
Definition group_size (g : list Z) (i : nat) : option Z :=
  let n := nth (Nat.min i (length g - 1)) g 0 in
  if (0 <? n) && (n <? 127) then Some n else None.

(** num_put::do_put, stage 2 ([facet.num.put.virtuals]): the digits [rds], least
    significant first, with separators; [left] digits still go into group [i].
    raw_fraction.hpp:61. *)
Fixpoint put_groups (p : punct) (i : nat) (left : option Z) (rds : list Z) : list Z :=
  match rds with
  | [] => []
  | c :: r =>
      match left with
      | None => c :: put_groups p i None r
      | Some k =>
          if k =? 0 then separator p :: c :: put_groups p (S i) (option_map Z.pred (group_size (grouping p) (S i))) r
          else c :: put_groups p i (Some (k - 1)) r
      end
  end.
(** operator<< of an integer: raw_fraction.hpp:61. *)
Definition l_put_int (p : punct) (z : Z) : list Z :=
  let m := Z.abs z in
  let ds := put_digits (S (Z.to_nat (Z.log2 m))) m [] in
  let text := rev (put_groups p 0 (group_size (grouping p) 0) (rev ds)) in
  if z <? 0 then 45 :: text else text.

(** raw_fraction.hpp:57-62, fraction.hpp:499-504 *)
Definition l_put_raw (p : punct) (v : raw) : list Z := l_put_int p (num v) ++ [47] ++ l_put_int p (den v).

(** Separators are recognised only if the locale groups at all. In the numbers read at
    raw_fraction.hpp:68 and 70. *)
Definition is_separator (p : punct) (c : Z) : bool :=
  match grouping p with [] => false | _ => c =? separator p end.
(** The longest run of digits and separators. In the numbers read at raw_fraction.hpp:68
    and 70. *)
Fixpoint span_run (p : punct) (s : list Z) : list Z * list Z :=
  match s with
  | c :: s' =>
      if is_separator p c || is_dec c then let '(a, b) := span_run p s' in (c :: a, b) else ([], s)
  | [] => ([], [])
  end.
(** The numbers of digits between separators, from the right of the reversed text. In
    the numbers read at raw_fraction.hpp:68 and 70. *)
Fixpoint group_lengths (p : punct) (n : Z) (rt : list Z) : list Z :=
  match rt with
  | [] => [n]
  | c :: r => if is_separator p c then n :: group_lengths p 0 r else group_lengths p (n + 1) r
  end.
(** Are the groups, from [i] on, of the sizes of the locale? The leading one may be
    shorter. For the numbers read at raw_fraction.hpp:68 and 70. *)
Fixpoint consistent (g : list Z) (i : nat) (ls : list Z) : bool :=
  match ls with
  | [] => true
  | [l] => (0 <? l) && match group_size g i with Some n => l <=? n | None => true end
  | l :: r => match group_size g i with Some n => (l =? n) && consistent g (S i) r | None => false end
  end.
(** Text without separators is not checked. For the numbers read at raw_fraction.hpp:68
    and 70. *)
Definition check_groups (p : punct) (run : list Z) : bool :=
  match group_lengths p 0 (rev run) with
  | [_] => true
  | ls => consistent (grouping p) 0 ls
  end.

(** num_get::do_get ([facet.num.get.virtuals]): separators are discarded, the digits
    converted, and then the positions of the separators checked. raw_fraction.hpp:68 and
    70. *)
Definition l_get_number (p : punct) (t : rep) (r : list Z) : istream * Z :=
  let '(neg, r1) :=
    match r with
    | c :: r' => if c =? 45 then (true, r') else if c =? 43 then (false, r') else (false, r)
    | [] => (false, r)
    end in
  let '(run, r2) := span_run p r1 in
  let eof := match r2 with [] => true | _ => false end in
  let bad := negb (check_groups p run) in
  match filter (fun c => negb (is_separator p c)) run with
  | [] => (mkIn r2 true eof, 0)
  | ds =>
      let m := digits_int ds in
      if rsigned t then
        let z := if neg then - m else m in
        if in_rep t z then (mkIn r2 bad eof, z)
        else (mkIn r2 true eof, if neg then rmin t else rmax t)
      else if m <=? rmax t then (mkIn r2 bad eof, cast t (if neg then - m else m))
      else (mkIn r2 true eof, rmax t)
  end.

(** operator>> of an integer type, as in Stream.v. raw_fraction.hpp:68 and 70. *)
Definition l_get_int (p : punct) (t : rep) (s : istream) (old : Z) : istream * Z :=
  let '(s1, ok) := sentry s in
  if ok then l_get_number p t (unread s1) else (s1, old).

(** raw_fraction.hpp:64-71, fraction.hpp:506-511 *)
Definition l_get_raw (p : punct) (t : rep) (s : istream) (value : raw) : istream * raw :=
  let '(s1, n) := l_get_int p t s (num value) in
  let s2 := ignore_slash s1 in
  let '(s3, d) := l_get_int p t s2 (den value) in
  (s3, mkRaw n d).
