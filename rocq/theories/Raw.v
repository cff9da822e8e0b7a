(** raw_fraction, its queries and its math.

    Models /repo/include/ieme/raw_fraction.hpp, raw_fraction_queries.hpp,
    raw_fraction_math.hpp, reduce_mode.hpp and math_utilities.hpp. *)

From Coq Require Import ZArith Bool.
From Verif Require Import Machine.
Open Scope Z_scope.

(** raw_fraction.hpp:13-26: numerator and denominator of type Rep. *)
Record raw : Type := mkRaw { num : Z; den : Z }.

(** raw_fraction.hpp:16,18: members are value-initialised by default. *)
Definition raw_default : raw := mkRaw 0 0.

(** raw_fraction.hpp:48-55: converting constructor. *)
Definition raw_cast (t : rep) (r : raw) : raw :=
  mkRaw (cast t (num r)) (cast t (den r)).

(** Both members are values of type [t]. The members at raw_fraction.hpp:16. *)
Definition wf_raw (t : rep) (r : raw) : Prop :=
  in_rep t (num r) = true /\ in_rep t (den r) = true.

(** reduce_mode.hpp:8.  Simplification: the two enumerators only; the
    fall-through of [reduce] for other values of the enum
    (raw_fraction_math.hpp:65) is in Modes.v. *)
Inductive reduce_mode : Type := normalize_signs_mode | ignore_signs_mode.

(** raw_fraction_queries.hpp:65-69 *)
Definition is_defined (v : raw) : bool := negb (den v =? 0).
(** raw_fraction_queries.hpp:71-75 *)
Definition is_undefined (v : raw) : bool := negb (is_defined v).
(** raw_fraction_queries.hpp:77-82 *)
Definition is_positive (v : raw) : bool :=
  ((num v >? 0) && (den v >? 0)) || ((num v <? 0) && (den v <? 0)).
(** raw_fraction_queries.hpp:84-89 *)
Definition is_non_negative (v : raw) : bool :=
  ((num v >=? 0) && (den v >? 0)) || ((num v <=? 0) && (den v <? 0)).
(** raw_fraction_queries.hpp:91-95 *)
Definition is_zero (v : raw) : bool := is_defined v && (num v =? 0).
(** raw_fraction_queries.hpp:97-102 *)
Definition is_non_positive (v : raw) : bool :=
  ((num v >=? 0) && (den v <? 0)) || ((num v <=? 0) && (den v >? 0)).
(** raw_fraction_queries.hpp:104-109 *)
Definition is_negative (v : raw) : bool :=
  ((num v >? 0) && (den v <? 0)) || ((num v <? 0) && (den v >? 0)).
(** raw_fraction_queries.hpp:111-115; && short-circuits *)
Definition is_integer (t : rep) (v : raw) : res bool :=
  if is_defined v then do r <- m_rem t (num v) (den v); Ok (r =? 0)
  else Ok false.
(** raw_fraction_queries.hpp:117-123 *)
Definition is_unit_fraction (t : rep) (v : raw) : res bool :=
  if is_defined v && negb (num v =? 0)
  then do r <- m_rem t (den v) (num v); Ok (r =? 0)
  else Ok false.
(** raw_fraction_queries.hpp:125-130 *)
Definition is_reduced_ignore_signs (t : rep) (v : raw) : res bool :=
  if is_defined v then do g <- std_gcd t (num v) (den v); Ok (g =? 1)
  else Ok false.
(** raw_fraction_queries.hpp:132-139 *)
Definition is_reduced (t : rep) (v : raw) : res bool :=
  let signs_are_normalized := (num v >? 0) || (den v >? 0) in
  if signs_are_normalized then is_reduced_ignore_signs t v else Ok false.

(** math_utilities.hpp:26-30 *)
Definition mu_abs (t : rep) (v : Z) : res Z :=
  if v >=? 0 then Ok v else m_neg t v.

(** raw_fraction_queries.hpp:141-146 *)
Definition is_proper (t : rep) (v : raw) : res bool :=
  do n <- mu_abs t (num v);
  do d <- mu_abs t (den v);
  Ok (n <? d).
(** raw_fraction_queries.hpp:148-152 *)
Definition is_improper (t : rep) (v : raw) : res bool :=
  do b <- is_proper t v; Ok (negb b).
(** raw_fraction_queries.hpp:154-160 *)
Definition are_identical (l r : raw) : bool :=
  (num l =? num r) && (den l =? den r).
(** raw_fraction_queries.hpp:162-167 *)
Definition are_different (l r : raw) : bool := negb (are_identical l r).

(** math_utilities.hpp:32-38: 1 shifted in the unsigned type, then converted. *)
Definition mu_pow2 (t : rep) (exponent : Z) : res Z :=
  let u := make_unsigned t in
  do s <- m_shl u 1 (cast u exponent);
  Ok (cast t s).

(** math_utilities.hpp:40-52.  The C++ recursion is run with fuel; 2 * bits
    steps always suffice for an exponent of type [t] (pow_fuel_enough). *)
Fixpoint mu_pow_fuel (fuel : nat) (t : rep) (base exponent : Z) : res Z :=
  match fuel with
  | O => UB OutOfFuel
  | S fuel' =>
      if exponent =? 0 then Ok 1
      else
        do r <- m_rem t exponent 2;
        if r =? 1
        then
          do e <- m_sub t exponent 1;
          do p <- mu_pow_fuel fuel' t base e;
          m_mul t base p
        else
          do e <- m_div t exponent 2;
          do s <- mu_pow_fuel fuel' t base e;
          m_mul t s s
  end.
(** math_utilities.hpp:41-52, with fuel that suffices. *)
Definition mu_pow (t : rep) (base exponent : Z) : res Z :=
  mu_pow_fuel (Z.to_nat (2 * rbits t + 2)) t base exponent.

(** raw_fraction_math.hpp:38-42 *)
Definition reciprocal (v : raw) : raw := mkRaw (den v) (num v).

(** raw_fraction_math.hpp:44-51 *)
Definition normalize_signs (t : rep) (v : raw) : res raw :=
  if den v >? 0 then Ok v
  else
    do n <- m_neg t (num v);
    do d <- m_neg t (den v);
    Ok (mkRaw n d).

(** raw_fraction_math.hpp:75-85 *)
Definition reduce_ignore_signs (t : rep) (v : raw) : res raw :=
  if is_undefined v then Ok (mkRaw 0 0)
  else
    do g <- std_gcd t (num v) (den v);
    do n <- m_div t (num v) g;
    do d <- m_div t (den v) g;
    Ok (mkRaw n d).

(** raw_fraction_math.hpp:68-73 *)
Definition reduce_normalize_signs (t : rep) (v : raw) : res raw :=
  do r <- reduce_ignore_signs t v; normalize_signs t r.

(** raw_fraction_math.hpp:53-66 *)
Definition reduce (t : rep) (v : raw) (m : reduce_mode) : res raw :=
  match m with
  | normalize_signs_mode => reduce_normalize_signs t v
  | ignore_signs_mode => reduce_ignore_signs t v
  end.
