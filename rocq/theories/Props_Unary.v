(** Property theorems: exactly when queries and unary operations are defined.

    Each is closed by the lemma of the same name in Unary_claims.v. *)

From Coq Require Import ZArith QArith List Bool Lia.
From Verif Require Import Machine Raw Ops Spec Fraction Fmath Unary_spec Mixed_spec.
From Verif Require Import Machine_proofs Laws_proofs Unary_proofs.
Import ListNotations.
Open Scope Z_scope.
From Verif Require Import Unary_claims.

(** C89: reduce, in both modes, fails only on a defined fraction with a part equal to the
    least integer. *)
Theorem C89_reduce_defined_iff : forall t v m, signed_rep t -> wf_raw t v ->
  (exists r, reduce t v m = Ok r) <-> den v = 0 \/ no_minimum t v.
Proof. exact c89_reduce_defined_iff. Qed.
Print Assumptions C89_reduce_defined_iff.

(** C89: normalize_signs only when it has to negate such a part. *)
Theorem C89_normalize_signs_defined_iff : forall t v, signed_rep t -> wf_raw t v ->
  (exists r, normalize_signs t v = Ok r) <-> 0 < den v \/ no_minimum t v.
Proof. exact c89_normalize_signs_defined_iff. Qed.
Print Assumptions C89_normalize_signs_defined_iff.

(** C89: the queries. is_reduced computes no gcd for fractions whose signs it rejects. *)
Theorem C89_queries_defined_iff : forall t v, signed_rep t -> wf_raw t v ->
  ((exists b, is_unit_fraction t v = Ok b) <-> ~ (num v = -1 /\ den v = rmin t)) /\
  ((exists b, is_proper t v = Ok b) <-> no_minimum t v) /\
  ((exists b, is_improper t v = Ok b) <-> no_minimum t v) /\
  ((exists b, is_reduced_ignore_signs t v = Ok b) <-> den v = 0 \/ no_minimum t v) /\
  ((exists b, is_reduced t v = Ok b) <-> den v = 0 \/ no_minimum t v \/ num v <= 0 /\ den v < 0).
Proof. exact c89_queries_defined_iff. Qed.
Print Assumptions C89_queries_defined_iff.

Example c89_queries_case :
  let m := -2147483648 in
  no_minimum int32 (mkRaw (-2147483647) 5) /\ reduce int32 (mkRaw m 5) ignore_signs_mode = UB LibPrecond /\
  reduce int32 (mkRaw m 0) ignore_signs_mode = Ok (mkRaw 0 0) /\
  normalize_signs int32 (mkRaw m 5) = Ok (mkRaw m 5) /\ normalize_signs int32 (mkRaw 5 m) = UB Overflow /\
  is_unit_fraction int32 (mkRaw (-1) m) = UB Overflow /\ is_unit_fraction int32 (mkRaw 1 m) = Ok true /\
  is_proper int32 (mkRaw m 5) = UB Overflow /\ is_reduced int32 (mkRaw m (-5)) = Ok false /\
  is_reduced int32 (mkRaw m 5) = UB LibPrecond.
Proof. cbv zeta. split; [split; vm_compute; discriminate|]. repeat split; vm_compute; reflexivity. Qed.

(** C89: unary minus. With reduced inputs (the default policy) as for reduce; safe and
    fast themselves only fail on the least numerator; the policies that reduce only the
    output need both parts. *)
Theorem C89_negate_defined_iff : forall o t v, signed_rep t -> wf_raw t v ->
  (exists r, f_negate (denote o) t v = Ok r) <->
  if reduces_inputs o then den v = 0 \/ no_minimum t v
  else if plain o then num v <> rmin t
  else no_minimum t v.
Proof. exact c89_negate_defined_iff. Qed.
Print Assumptions C89_negate_defined_iff.

(** C89: abs returns what is not negative as it is, and negates the rest. *)
Theorem C89_abs_defined_iff : forall o t v q, signed_rep t -> wf_raw t v -> value v = Some q ->
  ((0 <= q)%Q -> f_abs (denote o) t v = Ok v) /\
  ((q < 0)%Q -> (exists r, f_abs (denote o) t v = Ok r) <-> (exists r, f_negate (denote o) t v = Ok r)).
Proof. exact c89_abs_defined_iff. Qed.
Print Assumptions C89_abs_defined_iff.

Example c89_negate_case :
  let m := -2147483648 in
  f_negate (denote defaults) int32 (mkRaw m 0) = Ok (mkRaw 0 0) /\
  f_negate (denote defaults) int32 (mkRaw 3 m) = UB LibPrecond /\
  f_negate (denote Fast) int32 (mkRaw 3 m) = Ok (mkRaw (-3) m) /\
  f_negate (denote Safe) int32 (mkRaw m 0) = UB Overflow /\
  f_negate (denote safe_reduced_o) int32 (mkRaw 3 m) = UB LibPrecond /\
  f_abs (denote defaults) int32 (mkRaw m (-3)) = Ok (mkRaw m (-3)) /\
  f_abs (denote defaults) int32 (mkRaw m 3) = UB LibPrecond.
Proof. cbv zeta. repeat split; vm_compute; reflexivity. Qed.
