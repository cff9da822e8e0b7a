(** Specification of the text of a fraction of a character type. *)

From Coq Require Import ZArith List.
From Verif Require Import Machine Raw Stream Stream_spec.
Import ListNotations.
Open Scope Z_scope.

Definition character (t : rep) : Prop := rbits t = 8.
Definition codes_only (s : list Z) : Prop := Forall (fun c => 0 <= c < 256) s.

(** A value of the type is the character with code [c]. *)
Definition is_char (z c : Z) : Prop := 0 <= c < 256 /\ exists k, z = c + 256 * k.

(** blanks, a character, anything without a slash, slash, blanks, a character; then
    [rest]. *)
Definition char_text (t : rep) (s : list Z) (v : raw) (rest : list Z) : Prop :=
  exists b1 n mid b2 d,
    s = b1 ++ [n] ++ mid ++ [47] ++ b2 ++ [d] ++ rest /\
    Forall blank b1 /\ ~ blank n /\ is_char (num v) n /\ ~ In 47 mid /\
    Forall blank b2 /\ ~ blank d /\ is_char (den v) d /\ wf_raw t v.
