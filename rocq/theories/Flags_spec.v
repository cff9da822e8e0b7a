(** Specification of the text of a fraction under any flags (C106). *)

From Coq Require Import ZArith List Bool.
From Verif Require Import Machine Raw Stream Stream_spec Format Format_spec Flags.
Import ListNotations.
Open Scope Z_scope.

(** The text [s] announces the base [b]: 0x for hexadecimal, another leading 0 for
    octal, another digit for decimal. *)
Definition announces (b : basefield) (s : list Z) : Prop :=
  exists sign r, s = sign ++ r /\ (sign = [] \/ sign = [45] \/ sign = [43]) /\
  match b with
  | Hex => exists x r', r = 48 :: x :: r' /\ (x = 120 \/ x = 88)
  | Oct => exists r', r = 48 :: r'
  | Dec => exists c r', r = c :: r' /\ 49 <= c <= 57
  end.

(** The base of the numbers read by a stream with these flags; [None] if each number
    announces its own.  Octal and hexadecimal must be set alone; conflicting flags are
    decimal. *)
Definition text_base (fl : flags) : option basefield :=
  if fl_dec fl || (fl_oct fl && fl_hex fl) then Some Dec
  else if fl_oct fl then Some Oct
  else if fl_hex fl then Some Hex
  else None.
(** The base of the numbers written; decimal without flags. *)
Definition written_base (fl : flags) : basefield :=
  match text_base fl with Some b => b | None => Dec end.

(** The text [s], followed by [r], is the number [z]: in the base of the flags, or, if
    they have none, in the base that it announces. *)
Definition reads_flags (t : rep) (fl : flags) (s : list Z) (z : Z) (r : list Z) : Prop :=
  exists b, reads_in b t s z /\ stops b r /\
  match text_base fl with
  | Some b' => b = b'
  | None => announces b s /\ (b = Oct -> forall x r', r = x :: r' -> x <> 120 /\ x <> 88)
  end.

(** Blanks are allowed before the two numbers only with skipws. *)
Definition fraction_text_flags (t : rep) (fl : flags) (s : list Z) (v : raw) (rest : list Z) : Prop :=
  exists b1 n mid b2 d,
    s = b1 ++ n ++ mid ++ [47] ++ b2 ++ d ++ rest /\
    Forall blank b1 /\ Forall blank b2 /\ (fl_skipws fl = false -> b1 = [] /\ b2 = []) /\
    reads_flags t fl n (num v) (mid ++ [47]) /\ ~ In 47 mid /\ reads_flags t fl d (den v) rest.

(** The padding of a number does not disturb its base when it is announced. *)
Definition announced_safely (t : rep) (f : format) (z : Z) : Prop :=
  f_base f <> Dec \/ f_fill f <> 48 \/ f_width f <= Z.of_nat (length (put_int_formatted t (no_width f) z)).
(** No blanks in front. *)
Definition flush (t : rep) (f : format) (z : Z) : Prop :=
  f_adjust f <> Right \/ f_width f <= Z.of_nat (length (put_int_formatted t (no_width f) z)).
(** What follows a fraction does not belong to it, in any base. *)
Definition ended (s : list Z) : Prop :=
  match s with [] => True | c :: _ => (forall d, ~ digit_is c d) /\ c <> 120 /\ c <> 88 end.
