(** Specification of streams with exception masks. *)

From Coq Require Import ZArith List Bool.
From Verif Require Import Machine Raw Stream Stream_spec Except.
Import ListNotations.
Open Scope Z_scope.

(** The state has no bit of the mask. *)
Definition quiet (m : exceptions) (s : istream) : Prop :=
  (on_fail m = true -> failbit s = false) /\ (on_eof m = true -> eofbit s = false).

(** Reading [n] fractions one after the other, and writing some. *)
Fixpoint get_all_ex (m : exceptions) (t : rep) (n : nat) (s : istream) (old : raw) : ended (istream * list raw) :=
  match n with
  | O => Returned (s, [])
  | S n' =>
      and_then (get_raw_ex m t s old) (fun r =>
      and_then (get_all_ex m t n' (fst r) old) (fun rs => Returned (fst rs, snd r :: snd rs)))
  end.
