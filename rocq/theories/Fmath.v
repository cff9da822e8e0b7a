(** Functions on fractions.

    Models /repo/include/ieme/fraction_math.hpp.  reciprocal, normalize_signs
    and reduce on fractions (fraction_math.hpp:94-127) and the queries of
    fraction_queries.hpp forward to the raw functions of Raw.v. *)

From Coq Require Import ZArith Bool.
From Verif Require Import Machine Raw Ops Fraction.
Open Scope Z_scope.

(** fraction_math.hpp:129-133 *)
Definition f_abs (p : policy) (t : rep) (v : raw) : res raw :=
  if is_non_negative v then Ok v else f_negate p t v.

(** fraction_math.hpp:154-158 *)
Definition f_trunc (t : rep) (v : raw) : res Z := m_div t (num v) (den v).

(** fraction_math.hpp:160-167 *)
Definition f_ceil (t : rep) (v : raw) : res Z :=
  do truncated <- f_trunc t v;
  do i <- is_integer t v;
  if i || (truncated <? 0) then Ok truncated else m_add t truncated 1.

(** fraction_math.hpp:169-176 *)
Definition f_floor (t : rep) (v : raw) : res Z :=
  do truncated <- f_trunc t v;
  do i <- is_integer t v;
  if i || (truncated >=? 0) then Ok truncated else m_sub t truncated 1.

(** fraction_math.hpp:178-186 *)
Definition f_round (p : policy) (t : rep) (v : raw) : res Z :=
  do floored <- f_floor t v;
  do d <- f_arith p t t Minus (RI v floored);
  do b <- f_cmp p t t Lt (RR d (mkRaw 1 2));
  if b then Ok floored else m_add t floored 1.

(** fraction_math.hpp:15.  Simplification: the four enumerators only; other
    values are in Modes.v. *)
Inductive round_mode : Type := round_trunc | round_ceil | round_floor | round_round.

(** fraction_math.hpp:135-152 *)
Definition f_to_whole (p : policy) (t : rep) (v : raw) (m : round_mode) : res Z :=
  match m with
  | round_trunc => f_trunc t v
  | round_ceil => f_ceil t v
  | round_floor => f_floor t v
  | round_round => f_round p t v
  end.

(** fraction_math.hpp:208-213 *)
Definition f_trunc_redenominate (p : policy) (t : rep) (v : raw) (d : Z) : res raw :=
  do x <- f_arith p t t Multiplies (RI v d);
  do n <- f_trunc t x;
  Ok (mkRaw n d).

(** fraction_math.hpp:215-222 *)
Definition f_ceil_redenominate (p : policy) (t : rep) (v : raw) (d : Z) : res raw :=
  if d >=? 0 then
    do x <- f_arith p t t Multiplies (RI v d);
    do n <- f_ceil t x;
    Ok (mkRaw n d)
  else
    do d' <- m_neg t d;
    do x <- f_arith p t t Multiplies (RI v d');
    do n <- f_ceil t x;
    do n <- m_neg t n;
    Ok (mkRaw n d).

(** fraction_math.hpp:224-231 *)
Definition f_floor_redenominate (p : policy) (t : rep) (v : raw) (d : Z) : res raw :=
  if d >=? 0 then
    do x <- f_arith p t t Multiplies (RI v d);
    do n <- f_floor t x;
    Ok (mkRaw n d)
  else
    do d' <- m_neg t d;
    do x <- f_arith p t t Multiplies (RI v d');
    do n <- f_floor t x;
    do n <- m_neg t n;
    Ok (mkRaw n d).

(** fraction_math.hpp:233-238 *)
Definition f_round_redenominate (p : policy) (t : rep) (v : raw) (d : Z) : res raw :=
  do x <- f_arith p t t Multiplies (RI v d);
  do n <- f_round p t x;
  Ok (mkRaw n d).

(** fraction_math.hpp:188-206 *)
Definition f_redenominate (p : policy) (t : rep) (v : raw) (d : Z) (m : round_mode) : res raw :=
  match m with
  | round_trunc => f_trunc_redenominate p t v d
  | round_ceil => f_ceil_redenominate p t v d
  | round_floor => f_floor_redenominate p t v d
  | round_round => f_round_redenominate p t v d
  end.

(** fraction_math.hpp:240-248; the exponent is an int. *)
Definition f_pow2 (t : rep) (exponent : Z) : res raw :=
  if exponent >=? 0 then
    do n <- mu_pow2 t (cast t exponent);
    Ok (f_of_int n)
  else
    do e <- m_neg int32 exponent;
    do d <- mu_pow2 t (cast t e);
    Ok (mkRaw 1 d).

(** fraction_math.hpp:250-258 *)
Definition f_pow (t : rep) (base exponent : Z) : res raw :=
  if exponent >=? 0 then
    do n <- mu_pow t base (cast t exponent);
    Ok (f_of_int n)
  else
    do e <- m_neg int32 exponent;
    do d <- mu_pow t base (cast t e);
    Ok (mkRaw 1 d).
