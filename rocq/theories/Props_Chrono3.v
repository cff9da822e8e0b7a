(** Property theorems: exactly when operations on fractional durations are defined.

    Each is closed by the lemma of the same name in Chrono3_claims.v. *)

From Coq Require Import ZArith QArith List Bool Lia.
From Verif Require Import Machine Raw Ops Spec Fraction Mixed_spec Chrono Chrono_spec Chrono2 Defined_spec Chrono3_spec.
From Verif Require Import Machine_proofs Defined_proofs Chrono3_proofs.
Import ListNotations.
Open Scope Z_scope.
From Verif Require Import Chrono3_claims.

(** C85: a conversion by the factor n/d is defined exactly when the products of the
    parts in lowest terms fit. *)
Theorem C85_conversion_defined_iff : forall t from to c q n d, signed_rep t -> wf_period from -> wf_period to ->
  is_factor from to n d -> n <= rmax t -> d <= rmax t -> count_bounded (rmax t) c -> count_value c = Some q ->
  (exists r, duration_cast (denote defaults) t from to c = Some (Ok r)) <-> scale_fits (rmax t) q n d.
Proof. exact c85_conversion_defined_iff. Qed.
Print Assumptions C85_conversion_defined_iff.

(** 7/3 weeks in nanoseconds: 604800 * 10^9 * 7 fits 64 bits.  The factor times 10^5
    does not. *)
Example C85_conversion_example :
  is_factor (mkPeriod 604800 1) (mkPeriod 1 1000000000) 604800000000000 1 /\
  scale_fits (rmax int64) (7 # 3) 604800000000000 1 /\
  duration_cast (denote defaults) int64 (mkPeriod 604800 1) (mkPeriod 1 1000000000) (FracCount (mkRaw 7 3)) =
    Some (Ok (mkRaw 1411200000000000 1)) /\
  ~ scale_fits (rmax int64) (inject_Z 100000) 604800000000000 1 /\
  exists u, duration_cast (denote defaults) int64 (mkPeriod 604800 1) (mkPeriod 1 1000000000) (FracCount (mkRaw 100000 1)) =
    Some (UB u).
Proof.
  split; [|split; [|split; [|split]]].
  - unfold is_factor. repeat split; try reflexivity; vm_compute; discriminate.
  - split; vm_compute; discriminate.
  - vm_compute. reflexivity.
  - intros [H _]. vm_compute in H. now apply H.
  - eexists. vm_compute. reflexivity.
Qed.

(** C85: std::common_type of two durations has the greatest period of which both are
    integer multiples. *)
Theorem C85_common_period : forall a b pc, wf_period a -> wf_period b -> common_period a b = Some pc ->
  (exists n m, 0 < n /\ 0 < m /\ (inject_Z n * period_value pc == period_value a)%Q /\
     (inject_Z m * period_value pc == period_value b)%Q) /\
  (forall p n m, wf_period p -> (inject_Z n * period_value p == period_value a)%Q -> (inject_Z m * period_value p == period_value b)%Q ->
     exists k, 0 < k /\ (inject_Z k * period_value p == period_value pc)%Q).
Proof. exact c85_common_period. Qed.
Print Assumptions C85_common_period.

(** 5/24 and 5/18 of a second are multiples of 5/72. *)
Example C85_common_period_example :
  common_period (mkPeriod 5 24) (mkPeriod 5 18) = Some (mkPeriod 5 72) /\ wf_period (mkPeriod 5 24) /\ wf_period (mkPeriod 5 18).
Proof. split; [vm_compute; reflexivity|]. repeat split; vm_compute; reflexivity. Qed.

(** C85: +, -, / and % of two durations are defined exactly when both counts can be
    converted to the common period and the operation on the converted counts is defined. *)
Theorem C85_arith_defined_iff : forall t op pl pr pc l r a b n1 n2, signed_rep t -> wf_period pl -> wf_period pr ->
  common_period pl pr = Some pc -> is_factor pl pc n1 1 -> is_factor pr pc n2 1 -> n1 <= rmax t -> n2 <= rmax t ->
  count_bounded (rmax t) l -> count_bounded (rmax t) r -> count_value l = Some a -> count_value r = Some b ->
  (exists x, duration_arith (denote defaults) t op pl pr l r = Some (pc, Ok x)) <->
  Z.abs (low_num a * n1) <= rmax t /\ Z.abs (low_num b * n2) <= rmax t /\
  enough (rmax t) op (a * inject_Z n1) (b * inject_Z n2).
Proof. exact c85_arith_defined_iff. Qed.
Print Assumptions C85_arith_defined_iff.

(** C85: ... comparisons exactly when the converted counts can be compared. *)
Theorem C85_cmp_defined_iff : forall t pl pr pc l r a b n1 n2, signed_rep t -> wf_period pl -> wf_period pr ->
  common_period pl pr = Some pc -> is_factor pl pc n1 1 -> is_factor pr pc n2 1 -> n1 <= rmax t -> n2 <= rmax t ->
  count_bounded (rmax t) l -> count_bounded (rmax t) r -> count_value l = Some a -> count_value r = Some b ->
  let fits := Z.abs (low_num a * n1) <= rmax t /\ Z.abs (low_num b * n2) <= rmax t /\
    common_fits (rmax t) (a * inject_Z n1) (b * inject_Z n2) in
  ((exists v, duration_eq (denote defaults) t pl pr l r = Some (Ok v)) <-> fits) /\
  ((exists v, duration_lt (denote defaults) t pl pr l r = Some (Ok v)) <-> fits).
Proof. exact c85_cmp_defined_iff. Qed.
Print Assumptions C85_cmp_defined_iff.

(** One and a half hours plus 1/7 of a nanosecond, compared and subtracted. *)
Example C85_example :
  let h := mkPeriod 3600 1 in let ns := mkPeriod 1 1000000000 in
  let l := FracCount (mkRaw 3 2) in let r := FracCount (mkRaw 1 7) in
  common_period h ns = Some ns /\ is_factor h ns 3600000000000 1 /\ is_factor ns ns 1 1 /\
  enough (rmax int64) Minus ((3 # 2) * inject_Z 3600000000000) ((1 # 7) * inject_Z 1) /\
  duration_arith (denote defaults) int64 Minus h ns l r = Some (ns, Ok (mkRaw 37799999999999 7)) /\
  duration_lt (denote defaults) int64 h ns l r = Some (Ok false).
Proof.
  repeat split; try reflexivity; try (vm_compute; reflexivity); vm_compute; discriminate.
Qed.

(** C85: durations of integers: sums, differences and comparisons are defined whenever the
    converted counts and their sum or difference fit. *)
Theorem C85_integers_total : forall t pl pr pc s1 s2 x y n1 n2, signed_rep t -> wf_period pl -> wf_period pr ->
  common_period pl pr = Some pc -> is_factor pl pc n1 1 -> is_factor pr pc n2 1 -> n1 <= rmax t -> n2 <= rmax t ->
  in_rep s1 x = true -> in_rep s2 y = true -> Z.abs (x * n1) + Z.abs (y * n2) <= rmax t ->
  (exists v, duration_arith (denote defaults) t Plus pl pr (IntCount s1 x) (IntCount s2 y) = Some (pc, Ok v)) /\
  (exists v, duration_arith (denote defaults) t Minus pl pr (IntCount s1 x) (IntCount s2 y) = Some (pc, Ok v)) /\
  (exists v, duration_eq (denote defaults) t pl pr (IntCount s1 x) (IntCount s2 y) = Some (Ok v)) /\
  (exists v, duration_lt (denote defaults) t pl pr (IntCount s1 x) (IntCount s2 y) = Some (Ok v)).
Proof. exact c85_integers_total. Qed.
Print Assumptions C85_integers_total.

Example C85_integers_example :
  duration_arith (denote defaults) int64 Minus (mkPeriod 60 1) (mkPeriod 1 1000) (IntCount int64 5) (IntCount int64 300001) =
    Some (mkPeriod 1 1000, Ok (mkRaw (-1) 1)).
Proof. vm_compute. reflexivity. Qed.
