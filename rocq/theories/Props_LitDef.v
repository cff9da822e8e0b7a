(** Property theorems: exactly when converting a literal is defined.

    Each is closed by the lemma of the same name in LitDef_claims.v. *)

From Coq Require Import String ZArith QArith List Bool Lia.
From Verif Require Import Machine Raw Ops Spec Fraction Fmath Parse Parse_spec Literals Mixed_spec Defined_spec LitDef_spec.
From Verif Require Import Machine_proofs Value_proofs Algebra_proofs Parse_proofs Parse2_proofs LitDef_proofs.
Import ListNotations.
Open Scope Z_scope.
From Verif Require Import LitDef_claims.

(** C90: under the default policy a literal converts without undefined behaviour exactly
    when the power of the base past each digit sequence, the power of the exponent and the
    result before its last reduction fit, and the exponent has at most nine digits. *)
Theorem C90_literal_defined_iff : forall t l, signed_rep t -> valid_literal l ->
  Z.of_nat (length (spell l)) <= 2147483647 ->
  (exists r, string_to_fraction (denote defaults) t (spell l) = Ok r) <-> literal_fits (rmax t) l.
Proof. exact c90_literal_defined_iff. Qed.
Print Assumptions C90_literal_defined_iff.

(** "2147483647.0" does not convert in 32 bits, nor does "1.0000000000"; "12.5e-8" does
    because its digits are reduced before the exponent is applied. *)
Example c90_literal_defined_iff_case :
  let w := mkLit [] (codes "12") (codes "5") (Some (mkExp 101 (Some 45) (codes "8"))) in
  spell w = codes "12.5e-8" /\ literal_fits (rmax int32) w /\
  low_num (mantissa w) = 25 /\ low_den (mantissa w) = 2 /\ power w = 100000000 /\
  string_to_fraction (denote defaults) int32 (codes "12.5e-8") = Ok (mkRaw 1 8000000) /\
  string_to_fraction (denote Safe) int32 (codes "12.5e-9") = UB Overflow /\
  string_to_fraction (denote defaults) int32 (codes "12.5e-9") = Ok (mkRaw 1 80000000) /\
  string_to_fraction (denote defaults) int32 (codes "0.25e9") = Ok (mkRaw 250000000 1) /\
  string_to_fraction (denote defaults) int32 (codes "1.25e-9") = UB Overflow /\
  string_to_fraction (denote defaults) int32 (codes "2147483647.0") = UB Overflow /\
  string_to_fraction (denote defaults) int32 (codes "1.0000000000") = UB Overflow /\
  string_to_fraction (denote defaults) int32 (codes "1.0e0000000001") = UB Overflow.
Proof.
  cbv zeta. split; [reflexivity|]. split; [vm_compute; repeat split; discriminate|].
  repeat split; vm_compute; reflexivity.
Qed.

(** C90: the same for the literal suffix _dec, which converts to 64 bits. *)
Theorem C90_dec_defined_iff : forall l, valid_literal l -> Z.of_nat (length (spell l)) <= 2147483647 ->
  (exists r, literal_dec (spell l) = Ok r) <-> literal_fits (2 ^ 63 - 1) l.
Proof. exact c90_dec_defined_iff. Qed.
Print Assumptions C90_dec_defined_iff.

(** C90: a literal that converts in a representation converts in every wider one, to the
    same fraction. *)
Theorem C90_wider_still_defined : forall t u l r, signed_rep t -> signed_rep u -> rmax t <= rmax u -> valid_literal l ->
  Z.of_nat (length (spell l)) <= 2147483647 ->
  string_to_fraction (denote defaults) t (spell l) = Ok r ->
  string_to_fraction (denote defaults) u (spell l) = Ok r.
Proof. exact c90_wider_still_defined. Qed.
Print Assumptions C90_wider_still_defined.

Example c90_wider_still_defined_case :
  string_to_fraction (denote defaults) int32 (codes "0x1.8p-20") = Ok (mkRaw 3 2097152) /\
  string_to_fraction (denote defaults) int64 (codes "0x1.8p-20") = Ok (mkRaw 3 2097152) /\
  literal_dec (codes "0.5e-17") = Ok (Some (mkRaw 1 200000000000000000)) /\
  literal_dec (codes "0.5e-19") = UB Overflow.
Proof. repeat split; vm_compute; reflexivity. Qed.
