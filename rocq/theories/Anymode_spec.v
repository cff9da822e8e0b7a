(** Specification vocabulary for Props_Anymode.v. *)

From Coq Require Import ZArith Bool.
From Verif Require Import Machine Raw Ops Modes Anymode.
Open Scope Z_scope.

(** The policy is spelled with the enumerators only, and is the policy [o]. *)
Inductive spells : ops_any -> ops -> Prop :=
| spells_safe : spells AnySafe Safe
| spells_fast : spells AnyFast Fast
| spells_in_normalize : forall z o, spells z o ->
    spells (AnyInput z 0) (ReducedInput o normalize_signs_mode)
| spells_in_ignore : forall z o, spells z o ->
    spells (AnyInput z 1) (ReducedInput o ignore_signs_mode)
| spells_out_normalize : forall z o, spells z o ->
    spells (AnyOutput z 0) (ReducedOutput o normalize_signs_mode)
| spells_out_ignore : forall z o, spells z o ->
    spells (AnyOutput z 1) (ReducedOutput o ignore_signs_mode).

(** An enumerator of reduce_mode. *)
Definition enumerator (m : Z) : Prop := m = 0 \/ m = 1.

(** Some reduced_input, respectively some reduced_output, of the policy has a
    mode that is not an enumerator. *)
Fixpoint stray_input (z : ops_any) : Prop :=
  match z with
  | AnySafe | AnyFast => False
  | AnyInput z m => ~ enumerator m \/ stray_input z
  | AnyOutput z _ => stray_input z
  end.
Fixpoint stray_output (z : ops_any) : Prop :=
  match z with
  | AnySafe | AnyFast => False
  | AnyInput z _ => stray_output z
  | AnyOutput z m => ~ enumerator m \/ stray_output z
  end.

(** The policy at the bottom is safe. *)
Fixpoint rests_on_safe (z : ops_any) : bool :=
  match z with
  | AnySafe => true
  | AnyFast => false
  | AnyInput z _ => rests_on_safe z
  | AnyOutput z _ => rests_on_safe z
  end.

(** A policy without stray inputs compares as a policy of Ops.v: reduced_output
    does not matter, whatever its mode. *)
Inductive compares_as : ops_any -> ops -> Prop :=
| compares_safe : compares_as AnySafe Safe
| compares_fast : compares_as AnyFast Fast
| compares_in_normalize : forall z o, compares_as z o ->
    compares_as (AnyInput z 0) (ReducedInput o normalize_signs_mode)
| compares_in_ignore : forall z o, compares_as z o ->
    compares_as (AnyInput z 1) (ReducedInput o ignore_signs_mode)
| compares_out : forall z o m, compares_as z o -> compares_as (AnyOutput z m) o.

(** A policy without stray outputs negates as a policy of Ops.v: the mode of
    reduced_input does not matter. *)
Inductive negates_as : ops_any -> ops -> Prop :=
| negates_safe : negates_as AnySafe Safe
| negates_fast : negates_as AnyFast Fast
| negates_in : forall z o m m', negates_as z o -> negates_as (AnyInput z m) (ReducedInput o m')
| negates_out_normalize : forall z o, negates_as z o ->
    negates_as (AnyOutput z 0) (ReducedOutput o normalize_signs_mode)
| negates_out_ignore : forall z o, negates_as z o ->
    negates_as (AnyOutput z 1) (ReducedOutput o ignore_signs_mode).
