(** Specification of floating-point literals, independent of the code. *)

From Coq Require Import Ascii String ZArith QArith List.
From Verif Require Import Parse.
Import ListNotations.
Open Scope Z_scope.

(** The character codes of a Coq string, to write examples. *)
Definition codes (s : string) : list Z :=
  map (fun c => Z.of_nat (nat_of_ascii c)) (list_ascii_of_string s).

(** The digit a character stands for, up to base 16. *)
Definition digit_value (c : Z) : option Z :=
  if (48 <=? c) && (c <=? 57) then Some (c - 48)
  else if (97 <=? c) && (c <=? 102) then Some (c - 87)
  else if (65 <=? c) && (c <=? 70) then Some (c - 55)
  else None.
Definition is_digit (base c : Z) : Prop := exists d, digit_value c = Some d /\ d < base.

(** A digit sequence: digits, with single quotes allowed between two digits
    (the digit-sequence of the C++ grammar). *)
Inductive digit_seq (base : Z) : list Z -> Prop :=
| ds_one : forall c, is_digit base c -> digit_seq base [c]
| ds_digit : forall c s, is_digit base c -> digit_seq base s -> digit_seq base (c :: s)
| ds_quote : forall c s, is_digit base c -> digit_seq base s -> digit_seq base (c :: 39 :: s).

(** The digits of a sequence, most significant first. *)
Fixpoint digits_of (s : list Z) : list Z :=
  match s with
  | [] => []
  | c :: s' => match digit_value c with Some d => d :: digits_of s' | None => digits_of s' end
  end.
Definition seq_value (base : Z) (s : list Z) : Z :=
  fold_left (fun acc d => acc * base + d) (digits_of s) 0.
Definition num_digits (s : list Z) : Z := Z.of_nat (length (digits_of s)).

(** A floating literal with a point:
    [0x] whole . fraction [e or p, sign, digits]. *)
Record exponent_part : Type := mkExp { x_letter : Z; x_sign : option Z; x_digits : list Z }.
Record literal : Type := mkLit {
  l_prefix : list Z;
  l_whole : list Z;
  l_fraction : list Z;
  l_exponent : option exponent_part
}.

Definition is_hex (l : literal) : bool := match l_prefix l with [] => false | _ => true end.
Definition l_base (l : literal) : Z := if is_hex l then 16 else 10.

Definition spell_exponent (e : option exponent_part) : list Z :=
  match e with
  | None => []
  | Some e => x_letter e :: (match x_sign e with Some c => [c] | None => [] end) ++ x_digits e
  end.
Definition spell (l : literal) : list Z :=
  l_prefix l ++ l_whole l ++ [46] ++ l_fraction l ++ spell_exponent (l_exponent l).

Definition empty_or (P : list Z -> Prop) (s : list Z) : Prop := s = [] \/ P s.

Definition valid_exponent (hex : bool) (e : exponent_part) : Prop :=
  (if hex then x_letter e = 112 \/ x_letter e = 80 else x_letter e = 101 \/ x_letter e = 69) /\
  (x_sign e = None \/ x_sign e = Some 43 \/ x_sign e = Some 45) /\
  digit_seq 10 (x_digits e).

Definition valid_literal (l : literal) : Prop :=
  (l_prefix l = [] \/ l_prefix l = [48; 120] \/ l_prefix l = [48; 88]) /\
  empty_or (digit_seq (l_base l)) (l_whole l) /\
  empty_or (digit_seq (l_base l)) (l_fraction l) /\
  (l_whole l <> [] \/ l_fraction l <> []) /\
  match l_exponent l with
  | None => is_hex l = false
  | Some e => valid_exponent (is_hex l) e
  end.

(** The exponent of a literal, and its value. *)
Definition l_scale (l : literal) : Z :=
  match l_exponent l with
  | None => 0
  | Some e =>
      match x_sign e with
      | Some 45 => - seq_value 10 (x_digits e)
      | _ => seq_value 10 (x_digits e)
      end
  end.
Definition literal_value (l : literal) : Q :=
  ((inject_Z (seq_value (l_base l) (l_whole l))
    + inject_Z (seq_value (l_base l) (l_fraction l))
      / inject_Z (l_base l ^ num_digits (l_fraction l)))
   * (if is_hex l then 2 # 1 else 10 # 1) ^ l_scale l)%Q.

(** How many digits the exponent is written with. *)
Definition exponent_digits (l : literal) : Z :=
  match l_exponent l with None => 0 | Some e => num_digits (x_digits e) end.

(** The C++ grammar ([lex.fcon]) also has literals without a point:
    [0x] digits exponent. *)
Record pointless_literal : Type := mkPointless {
  p_prefix : list Z;
  p_digits : list Z;
  p_exponent : exponent_part
}.
Definition spell_pointless (l : pointless_literal) : list Z :=
  p_prefix l ++ p_digits l ++ spell_exponent (Some (p_exponent l)).
Definition valid_pointless (l : pointless_literal) : Prop :=
  (p_prefix l = [] /\ digit_seq 10 (p_digits l) /\ valid_exponent false (p_exponent l)) \/
  ((p_prefix l = [48; 120] \/ p_prefix l = [48; 88]) /\
   digit_seq 16 (p_digits l) /\ valid_exponent true (p_exponent l)).

(** Every C++ floating literal without suffix. *)
Definition cpp_floating_literal (s : list Z) : Prop :=
  (exists l, valid_literal l /\ s = spell l) \/ (exists l, valid_pointless l /\ s = spell_pointless l).

(** The scanner's record holds the parts of the literal. *)
Definition parts_of (r : scan_results) (l : literal) : Prop :=
  sc_base r = l_base l /\ sc_whole r = l_whole l /\ sc_fractional r = l_fraction l /\
  match l_exponent l with
  | None => sc_negative r = false /\ sc_exponent r = []
  | Some e => sc_exponent r = x_digits e /\ (sc_negative r = true <-> x_sign e = Some 45)
  end.
