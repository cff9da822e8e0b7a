(** Property theorems: exactly when operations on mixed numbers are defined.

    Each is closed by the lemma of the same name in MixDef_claims.v. *)

From Coq Require Import ZArith QArith List Bool Lia.
From Verif Require Import Machine Raw Ops Spec Fraction Mixed Mixed_spec Defined_spec Unary_spec MixDef_spec.
From Verif Require Import Machine_proofs MixDef_proofs.
Import ListNotations.
Open Scope Z_scope.
From Verif Require Import MixDef_claims.

(** C91: constructing a mixed number under the default policy is defined exactly for a
    defined fraction without a part equal to the least integer, if the whole part of the
    sum fits. *)
Theorem C91_make_defined_iff : forall t w f, signed_rep t -> in_rep t w = true -> wf_raw t f ->
  (exists m, mixed_make (denote defaults) t t w f = Ok m) <->
  exists q, value f = Some q /\ no_minimum t f /\ in_rep t (w + Qtrunc q) = true.
Proof. exact c91_make_defined_iff. Qed.
Print Assumptions C91_make_defined_iff.

(** C91: converting a fraction is defined exactly for those fractions. *)
Theorem C91_of_fraction_defined_iff : forall t f, signed_rep t -> wf_raw t f ->
  (exists m, mixed_of_fraction (denote defaults) t t t f = Ok m) <-> value f <> None /\ no_minimum t f.
Proof. exact c91_of_fraction_defined_iff. Qed.
Print Assumptions C91_of_fraction_defined_iff.

(** C91: converting back is defined exactly if the numerator in lowest terms fits. *)
Theorem C91_as_fraction_defined_iff : forall t m q, signed_rep t -> wf_mixed t t m -> normal_form m ->
  no_minimum t (fractional m) -> mixed_value m = Some q ->
  (exists r, mixed_as_fraction (denote defaults) t t m = Ok r) <-> Z.abs (low_num q) <= rmax t.
Proof. exact c91_as_fraction_defined_iff. Qed.
Print Assumptions C91_as_fraction_defined_iff.

Example c91_conversions_case :
  mixed_make (denote defaults) int32 int32 2147483646 (mkRaw 3 2) = Ok (mkMixed 2147483647 (mkRaw 1 2)) /\
  mixed_make (denote defaults) int32 int32 2147483647 (mkRaw 3 2) = UB Overflow /\
  mixed_make (denote defaults) int32 int32 2147483647 (mkRaw (-7) (-9)) = Ok (mkMixed 2147483647 (mkRaw (-7) (-9))) /\
  mixed_of_fraction (denote defaults) int32 int32 int32 (mkRaw (-2147483647) 2147483646) =
    Ok (mkMixed (-1) (mkRaw (-1) 2147483646)) /\
  mixed_of_fraction (denote defaults) int32 int32 int32 (mkRaw (-2147483648) 5) = UB LibPrecond /\
  mixed_as_fraction (denote defaults) int32 int32 (mkMixed 1073741823 (mkRaw 1 2)) = Ok (mkRaw 2147483647 2) /\
  mixed_as_fraction (denote defaults) int32 int32 (mkMixed 1073741824 (mkRaw 1 2)) = UB Overflow.
Proof. repeat split; vm_compute; reflexivity. Qed.

(** C91: an expression over mixed numbers, fractions and integers of one type is defined
    exactly if at each addition the sum of the whole parts, the sum of the fractional parts
    over their least common denominator and the whole part with the carry fit, and no
    negated whole part is the least integer. *)
Theorem C91_expression_defined_iff : forall t e, signed_rep t -> typed t e ->
  (exists m, meval (denote defaults) e = Ok m) <-> mdefined (rmax t) e.
Proof. exact c91_expression_defined_iff. Qed.
Print Assumptions C91_expression_defined_iff.

(** The sum of 2147483646 1/2 and 1 1/3 fits, with 1 1/2 instead it does not; nor does
    the sum of 1/65536 and 1/65537, for the common denominator. *)
Example c91_expression_case :
  let e r := MPlus (MMake int32 int32 2147483646 (mkRaw 1 2)) r in
  typed int32 (e (MMake int32 int32 1 (mkRaw 1 3))) /\ mdefined (rmax int32) (e (MMake int32 int32 1 (mkRaw 1 3))) /\
  meval (denote defaults) (e (MMake int32 int32 1 (mkRaw 1 3))) = Ok (mkMixed 2147483647 (mkRaw 5 6)) /\
  meval (denote defaults) (e (MMake int32 int32 1 (mkRaw 1 2))) = UB Overflow /\
  meval (denote defaults) (e (MOfFraction int32 (mkRaw (-3) 2))) = Ok (mkMixed 2147483645 (mkRaw 0 1)) /\
  meval (denote defaults) (MPlus (MOfFraction int32 (mkRaw 1 65536)) (MOfFraction int32 (mkRaw 1 65537))) = UB LibPrecond.
Proof.
  cbv zeta. split; [repeat split|]. split; [|repeat split; vm_compute; reflexivity].
  cbn [mdefined]. unfold usable, raw_bounded, fits. cbn [num den].
  split; [split; [split; [vm_compute; discriminate|vm_compute; split; discriminate]|]|].
  { intros q E. vm_compute in E. injection E as <-. vm_compute. split; discriminate. }
  split; [split; [split; [vm_compute; discriminate|vm_compute; split; discriminate]|]|].
  { intros q E. vm_compute in E. injection E as <-. vm_compute. split; discriminate. }
  intros a b E1 E2. vm_compute in E1. injection E1 as <-. vm_compute in E2. injection E2 as <-.
  vm_compute. repeat split; discriminate.
Qed.
