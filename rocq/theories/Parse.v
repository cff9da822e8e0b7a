(** Scanning and converting floating-point strings.

    Models /repo/include/ieme/parse_utilities.hpp and
    floating_point_string_to_fraction of floating_point.hpp.  A character is its
    code, a std::string_view the list of its characters. *)

From Coq Require Import ZArith List Bool.
From Verif Require Import Machine Raw Ops Fraction Fmath.
Import ListNotations.
Open Scope Z_scope.

(** std::string_view ([string.view]); size_t has 64 bits. parse_utilities.hpp:82, 92,
    102. *)
Definition npos : Z := 2 ^ 64 - 1.
(** string_view::size: parse_utilities.hpp:45, 50, 54. *)
Definition sv_size (s : list Z) : Z := Z.of_nat (length s).
(** string_view::find(char). parse_utilities.hpp:65, 91, 95. *)
Fixpoint sv_find_from (i : Z) (s : list Z) (c : Z) : Z :=
  match s with
  | [] => npos
  | x :: s' => if x =? c then i else sv_find_from (i + 1) s' c
  end.
(** string_view::find(char): parse_utilities.hpp:65, 91, 95. *)
Definition sv_find (s : list Z) (c : Z) : Z := sv_find_from 0 s c.
(** string_view::substr(0, n): at most n characters. parse_utilities.hpp:56, 67, 110. *)
Definition sv_take (s : list Z) (n : Z) : list Z := firstn (Z.to_nat (Z.min n (sv_size s))) s.
(** string_view::remove_prefix, undefined beyond the end. parse_utilities.hpp:60, 85,
    134, 142. *)
Definition sv_remove_prefix (s : list Z) (n : Z) : res (list Z) :=
  if n <=? sv_size s then Ok (skipn (Z.to_nat n) s) else UB LibPrecond.
(** string_view::front, undefined on an empty view. parse_utilities.hpp:136. *)
Definition sv_front (s : list Z) : res Z :=
  match s with [] => UB LibPrecond | c :: _ => Ok c end.
(** string_view comparison with ==. parse_utilities.hpp:58. *)
Fixpoint sv_eqb (a b : list Z) : bool :=
  match a, b with
  | [], [] => true
  | x :: a', y :: b' => (x =? y) && sv_eqb a' b'
  | _, _ => false
  end.
(** string_view::empty. parse_utilities.hpp:69, 112. *)
Definition sv_empty (s : list Z) : bool := match s with [] => true | _ => false end.

(** The characters the code mentions (ASCII). parse_utilities.hpp:163, 192. *)
Definition ch_quote : Z := 39.
(** parse_utilities.hpp:141. *)
Definition ch_plus : Z := 43.
(** parse_utilities.hpp:138. *)
Definition ch_minus : Z := 45.
(** parse_utilities.hpp:65. *)
Definition ch_dot : Z := 46.
(** parse_utilities.hpp:58, 172, 202. *)
Definition ch_0 : Z := 48.
(** parse_utilities.hpp:172. *)
Definition ch_9 : Z := 57.
(** parse_utilities.hpp:173, 196. *)
Definition ch_A : Z := 65.
(** parse_utilities.hpp:88-89. *)
Definition ch_E : Z := 69.
(** parse_utilities.hpp:173, 196. *)
Definition ch_F : Z := 70.
(** parse_utilities.hpp:88-89. *)
Definition ch_P : Z := 80.
(** parse_utilities.hpp:58. *)
Definition ch_X : Z := 88.
(** parse_utilities.hpp:173, 199. *)
Definition ch_a : Z := 97.
(** parse_utilities.hpp:88-89. *)
Definition ch_e : Z := 101.
(** parse_utilities.hpp:173, 199. *)
Definition ch_f : Z := 102.
(** parse_utilities.hpp:88-89. *)
Definition ch_p : Z := 112.
(** parse_utilities.hpp:58. *)
Definition ch_x : Z := 120.

(** parse_utilities.hpp:156-181; the loop carries digit_preceeded. *)
Fixpoint valid_digits_loop (digit_preceeded : bool) (s : list Z) (base : Z) : bool :=
  match s with
  | [] => digit_preceeded
  | c :: s' =>
      if c =? ch_quote then
        if negb digit_preceeded then false else valid_digits_loop false s' base
      else if ((c <? ch_0) || (c >? ch_9))
              && ((((c <? ch_a) || (c >? ch_f)) && ((c <? ch_A) || (c >? ch_F)))
                  || negb (base =? 16))
      then false
      else valid_digits_loop true s' base
  end.
(** parse_utilities.hpp:156-181. *)
Definition is_valid_digit_sequence (s : list Z) (base : Z) : bool :=
  valid_digits_loop false s base.

(** parse_utilities.hpp:195-203; *it - 'A' + 10 is computed in int. *)
Definition digit_as_int (t : rep) (c : Z) : Z :=
  if (c >=? ch_A) && (c <=? ch_F) then cast t (c - ch_A + 10)
  else if (c >=? ch_a) && (c <=? ch_f) then cast t (c - ch_a + 10)
  else cast t (c - ch_0).

(** parse_utilities.hpp:183-210; the loop over the reversed sequence. *)
Fixpoint digits_loop (t : rep) (base : Z) (rev_s : list Z) (result base_power : Z) : res Z :=
  match rev_s with
  | [] => Ok result
  | c :: s' =>
      if c =? ch_quote then digits_loop t base s' result base_power
      else
        do p <- m_mul t (digit_as_int t c) base_power;
        do result' <- m_add t result p;
        do base_power' <- m_mul t base_power base;
        digits_loop t base s' result' base_power'
  end.
(** parse_utilities.hpp:183-210. *)
Definition digit_sequence_to_int (t : rep) (s : list Z) (base : Z) : res Z :=
  digits_loop t base (rev s) 0 1.

(** parse_utilities.hpp:19-26; [sc_negative] is exponent_sign == negative. *)
Record scan_results : Type := mkScan {
  sc_base : Z;
  sc_whole : list Z;
  sc_fractional : list Z;
  sc_precision : Z;
  sc_negative : bool;
  sc_exponent : list Z
}.

(** parse_utilities.hpp:121-129: an unsigned count stored in an int. *)
Definition count_digits (s : list Z) : Z :=
  cast int32
    (fold_left (fun n c => if c =? ch_quote then n else cast uint32 (n + 1)) s 0).

(** parse_utilities.hpp:42-154.  The views only get shorter, so [string] is
    [remaining_string] at each step. *)
Definition scan_floating_point_string (string : list Z) : res (option scan_results) :=
  if sv_size string <? 2 then Ok None
  else
    let last_pos (s : list Z) := cast uint64 (sv_size s - 1) in
    let first_two := sv_take string 2 in
    let hex := (sv_size string >? 2)
               && (sv_eqb first_two [ch_0; ch_x] || sv_eqb first_two [ch_0; ch_X]) in
    let base := if hex then 16 else 10 in
    do string <- (if hex then sv_remove_prefix string 2 else Ok string);
    let radix_separator_pos := sv_find string ch_dot in
    let whole := sv_take string radix_separator_pos in
    let no_whole := sv_empty whole in
    if negb (no_whole || is_valid_digit_sequence whole base) then Ok None
    else if radix_separator_pos =? last_pos string then
      if base =? 10 then Ok (Some (mkScan base whole [] 0 false [])) else Ok None
    else
      let no_radix_separator := radix_separator_pos =? npos in
      do string <- (if negb no_radix_separator
                    then sv_remove_prefix string (radix_separator_pos + 1) else Ok string);
      let lower := if base =? 10 then ch_e else ch_p in
      let upper := if base =? 10 then ch_E else ch_P in
      let lower_pos := sv_find string lower in
      let exponent_separator_pos :=
        if negb (lower_pos =? npos) then lower_pos else sv_find string upper in
      if exponent_separator_pos =? last_pos string then Ok None
      else
        let no_exponent_separator := exponent_separator_pos =? npos in
        if no_radix_separator && no_exponent_separator then Ok None
        else if (base =? 16) && no_exponent_separator then Ok None
        else
          let fractional := sv_take string exponent_separator_pos in
          let no_fractional := sv_empty fractional in
          if no_whole && no_fractional then Ok None
          else if negb (no_fractional || is_valid_digit_sequence fractional base) then Ok None
          else
            let precision := count_digits fractional in
            if no_exponent_separator
            then Ok (Some (mkScan base whole fractional precision false []))
            else
              do string <- sv_remove_prefix string (exponent_separator_pos + 1);
              do front <- sv_front string;
              let negative := front =? ch_minus in
              do string <- (if negative || (front =? ch_plus)
                            then sv_remove_prefix string 1 else Ok string);
              if negb (is_valid_digit_sequence string 10) then Ok None
              else Ok (Some (mkScan base whole fractional precision negative string)).

(** floating_point.hpp:91-129; limits::undefined() is 0/0
    (limits.hpp:169-173). *)
Definition string_to_fraction (p : policy) (t : rep) (string : list Z) : res raw :=
  do maybe <- scan_floating_point_string string;
  match maybe with
  | None => Ok (mkRaw 0 0)
  | Some sc =>
      let base := cast t (sc_base sc) in
      do whole <- digit_sequence_to_int t (sc_whole sc) base;
      do fnum <- digit_sequence_to_int t (sc_fractional sc) base;
      do fden <- mu_pow t base (cast t (sc_precision sc));
      let exponent_base := if sc_base sc =? 10 then 10 else 2 in
      let multiplier := if sc_negative sc then -1 else 1 in
      do digits <- digit_sequence_to_int int32 (sc_exponent sc) 10;
      do exponent <- m_mul int32 multiplier digits;
      do sum <- f_arith p t t Plus (IR whole (mkRaw fnum fden));
      do scale <- f_pow t exponent_base exponent;
      f_arith p t t Multiplies (RR sum scale)
  end.
