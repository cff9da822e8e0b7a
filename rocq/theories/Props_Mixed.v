(** Property theorems: mixed numbers.

    Each is closed by the lemma of the same name in Mixed_claims.v. *)

From Coq Require Import ZArith QArith List Bool Lia.
From Verif Require Import Machine Raw Ops Spec Fraction Fraction_spec Fmath Mixed Mixed_spec.
From Verif Require Import Machine_proofs Value_proofs Fmath_proofs Limits_proofs Literals_proofs Mixed_proofs Mixed2_proofs.
Import ListNotations.
Open Scope Z_scope.
From Verif Require Import Mixed_claims.

(** C42 *)
Theorem C42_construction : forall o t w f m,
  signed_rep t -> in_rep t w = true -> wf_raw t f ->
  mixed_make (denote o) t t w f = Ok m ->
  normal_form m /\ same_value (mixed_value m) (sum_value w (value f)).
Proof. exact c42_construction. Qed.
Print Assumptions C42_construction.

(** C42: no undefined behaviour inside the bound. *)
Theorem C42_total : forall o t w f B,
  signed_rep t -> in_rep t w = true -> wf_raw t f -> value f <> None ->
  1 <= B -> raw_bounded B f -> grow 2 B <= rmax t -> Z.abs w + B + 1 <= rmax t ->
  exists m, mixed_make (denote o) t t w f = Ok m /\ normal_form m /\
    same_value (mixed_value m) (sum_value w (value f)).
Proof. exact c42_total. Qed.
Print Assumptions C42_total.

(** C42 for unsigned types. *)
Theorem C42_unsigned_total : forall o tw tf w f B,
  wf_rep tw -> wf_rep tf -> rsigned tw = false -> rsigned tf = false ->
  in_rep tw w = true -> wf_raw tf f -> value f <> None ->
  raw_bounded B f -> 2 * B * B <= rmax tf -> w + B <= rmax tw ->
  exists m, mixed_make (denote o) tw tf w f = Ok m /\ normal_form m /\
    same_value (mixed_value m) (sum_value w (value f)).
Proof. exact c42_unsigned_total. Qed.
Print Assumptions C42_unsigned_total.

Example C42_nonvacuous :
  mixed_make (denote defaults) int32 int32 5 (mkRaw (-7) 4) = Ok (mkMixed 3 (mkRaw 1 4)) /\
  mixed_make (denote defaults) int32 int32 (-5) (mkRaw 7 4) = Ok (mkMixed (-3) (mkRaw (-1) 4)) /\
  mixed_make (denote defaults) uint32 uint32 5 (mkRaw 7 4) = Ok (mkMixed 6 (mkRaw 3 4)) /\
  grow 2 50 <= rmax int32.
Proof. repeat split; vm_compute; discriminate. Qed.

(** C43 *)
Theorem C43_from_fraction : forall o t f m,
  signed_rep t -> wf_raw t f -> mixed_of_fraction (denote o) t t t f = Ok m ->
  normal_form m /\
  exists q, value f = Some q /\ whole m = Qtrunc q /\ same_value (mixed_value m) (Some q).
Proof. exact c43_from_fraction. Qed.
Print Assumptions C43_from_fraction.

(** C43: from a fraction of another policy. *)
Theorem C43_from_other_policy : forall o t f,
  mixed_of_other_fraction (denote o) t t t f = mixed_of_fraction (denote o) t t t f.
Proof. exact c43_from_other_policy. Qed.
Print Assumptions C43_from_other_policy.

(** C43: converting back is exact, and gives the identical fraction when it was
    canonical and the policy makes its results canonical. *)
Theorem C43_round_trip : forall o t f m r,
  signed_rep t -> wf_raw t f -> mixed_of_fraction (denote o) t t t f = Ok m ->
  mixed_as_fraction (denote o) t t m = Ok r ->
  same_value (value r) (value f) /\ (output_canonical o = true -> canonical f -> r = f).
Proof. exact c43_round_trip. Qed.
Print Assumptions C43_round_trip.

Theorem C43_as_fraction : forall o tw tf m r,
  signed_rep tw -> signed_rep tf -> wf_mixed tw tf m ->
  mixed_as_fraction (denote o) tw tf m = Ok r -> same_value (value r) (mixed_value m).
Proof. exact c43_as_fraction. Qed.
Print Assumptions C43_as_fraction.

Theorem C43_total : forall o t f B,
  signed_rep t -> wf_raw t f -> value f <> None -> 1 <= B -> raw_bounded B f -> 2 * B * B <= rmax t ->
  exists m, mixed_of_fraction (denote o) t t t f = Ok m.
Proof. exact c43_total. Qed.
Print Assumptions C43_total.

Example C43_nonvacuous :
  mixed_of_fraction (denote defaults) int32 int32 int32 (mkRaw (-7) 3) = Ok (mkMixed (-2) (mkRaw (-1) 3)) /\
  mixed_as_fraction (denote defaults) int32 int32 (mkMixed (-2) (mkRaw (-1) 3)) = Ok (mkRaw (-7) 3).
Proof. repeat split. Qed.

(** C44: any expression over mixed numbers, fractions and whole numbers of any
    signed types. *)
Theorem C44_expressions_exact : forall o e m,
  wf_mexpr e -> meval (denote o) e = Ok m ->
  normal_form m /\ same_value (mixed_value m) (mdenotes e).
Proof. exact c44_expressions_exact. Qed.
Print Assumptions C44_expressions_exact.

(** C44: the result of an expression is determined by its value: two
    expressions of equal value give equal whole parts and fractional parts of
    equal value. *)
Theorem C44_value_determines : forall o1 o2 e1 e2 m1 m2,
  wf_mexpr e1 -> wf_mexpr e2 -> meval (denote o1) e1 = Ok m1 -> meval (denote o2) e2 = Ok m2 ->
  same_value (mdenotes e1) (mdenotes e2) ->
  whole m1 = whole m2 /\ same_value (value (fractional m1)) (value (fractional m2)).
Proof. exact c44_value_determines. Qed.
Print Assumptions C44_value_determines.

Example C44_nonvacuous :
  let e := MPlus (MNeg (MMake int32 int32 2 (mkRaw 1 3)))
                 (MPlusFraction (MWholePlus int64 7 (MOfFraction int32 (mkRaw 9 4))) int64 (mkRaw (-5) 6)) in
  wf_mexpr e /\ meval (denote defaults) e = Ok (mkMixed 6 (mkRaw 1 12)) /\
  same_value (mdenotes e) (Some (73 # 12)).
Proof.
  vm_compute. repeat split; try discriminate.
Qed.

(** C45 is false: an undefined fractional part or fraction always has undefined
    behaviour, whatever the policy, type, numerator and whole part. *)
Theorem C45_undefined_refuted : forall o tw tf to w f,
  wf_rep tf -> wf_rep to -> value f = None ->
  (wf_raw tf f -> exists u, mixed_make (denote o) tw tf w f = UB u) /\
  (exists u, mixed_of_fraction (denote o) tw tf to f = UB u).
Proof. exact c45_undefined_refuted. Qed.
Print Assumptions C45_undefined_refuted.

(** C45: consequently no expression evaluates to an undefined mixed number. *)
Theorem C45_never_undefined : forall o e m,
  wf_mexpr e -> meval (denote o) e = Ok m -> mixed_value m <> None /\ mdenotes e <> None.
Proof. exact c45_never_undefined. Qed.
Print Assumptions C45_never_undefined.

Example C45_nonvacuous :
  mixed_make (denote defaults) int32 int32 5 (mkRaw 0 0) = UB DivByZero /\
  mixed_of_fraction (denote defaults) int32 int32 int32 (mkRaw 0 0) = UB DivByZero.
Proof. repeat split. Qed.

(** C60 *)
Theorem C60_construction : forall o tw tf w f m,
  signed_rep tw -> signed_rep tf -> in_rep tw w = true -> wf_raw tf f ->
  (forall q, value f = Some q -> in_rep tw (Qtrunc q) = true) ->
  mixed_make (denote o) tw tf w f = Ok m ->
  normal_form m /\ same_value (mixed_value m) (sum_value w (value f)).
Proof. exact c60_construction. Qed.
Print Assumptions C60_construction.

(** C60: from a fraction of a third representation, no wider than the
    fractional one. *)
Theorem C60_from_fraction : forall o tw tf to f m,
  signed_rep tw -> signed_rep tf -> signed_rep to -> wf_raw to f -> rbits to <= rbits tf ->
  (forall q, value f = Some q -> in_rep tw (Qtrunc q) = true) ->
  mixed_of_fraction (denote o) tw tf to f = Ok m ->
  normal_form m /\
  exists q, value f = Some q /\ whole m = Qtrunc q /\ same_value (mixed_value m) (Some q).
Proof. exact c60_from_fraction. Qed.
Print Assumptions C60_from_fraction.

(** C60: when the truncated part does not fit, or the fractional type is
    unsigned and the whole part negative, the value is silently changed. *)
Theorem C60_narrow_whole_refuted : exists f m,
  wf_raw int64 f /\ mixed_make (denote defaults) int32 int64 0 f = Ok m /\
  ~ same_value (mixed_value m) (sum_value 0 (value f)).
Proof. exact c60_narrow_whole_refuted. Qed.
Print Assumptions C60_narrow_whole_refuted.

Theorem C60_unsigned_fraction_refuted : exists f m,
  wf_raw uint32 f /\ mixed_make (denote safe_reduced_o) int32 uint32 (-1) f = Ok m /\
  ~ same_value (mixed_value m) (sum_value (-1) (value f)).
Proof. exact c60_unsigned_fraction_refuted. Qed.
Print Assumptions C60_unsigned_fraction_refuted.

Example C60_nonvacuous :
  mixed_make (denote defaults) int32 int64 3 (mkRaw (-9000000000) 4000000000) = Ok (mkMixed 0 (mkRaw 3 4)) /\
  mixed_make (denote defaults) int64 int32 3 (mkRaw (-9) 4) = Ok (mkMixed 0 (mkRaw 3 4)) /\
  in_rep int32 (Qtrunc (inject_Z (-9000000000) / inject_Z 4000000000)) = true.
Proof. repeat split. Qed.
