(** Specification for C105: a set of rationals. *)

From Coq Require Import ZArith QArith List.
From Verif Require Import Machine Raw Ops Spec Table.
Import ListNotations.

(** The set after an action. *)
Definition is (v : raw) (q : Q) : Prop := exists x, value v = Some x /\ (x == q)%Q.
Definition after (S : Q -> Prop) (a : action) : Q -> Prop :=
  match a with
  | Insert v => fun q => S q \/ is v q
  | Erase v => fun q => S q /\ ~ is v q
  | Rehash _ => S
  end.
Definition set_of (l : list action) : Q -> Prop := fold_left after l (fun _ => False).

(** A key: a defined fraction in lowest terms. *)
Definition key (t : rep) (v : raw) : Prop := wf_raw t v /\ canonical v /\ value v <> None.
Definition keys (t : rep) (a : action) : Prop :=
  match a with Insert v | Erase v => key t v | Rehash _ => True end.
Definition small_keys (B : Z) (a : action) : Prop :=
  match a with Insert v | Erase v => (Z.abs (num v) <= B /\ Z.abs (den v) <= B)%Z | Rehash _ => True end.
