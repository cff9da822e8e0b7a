(** Property theorems: exactly when rounding under the default policy is defined.

    Each is closed by the lemma of the same name in Defined2_claims.v. *)

From Coq Require Import ZArith QArith Qround List Bool Lia.
From Verif Require Import Machine Raw Ops Spec Fraction Mixed_spec Fmath Defined_spec Defined2_spec.
From Verif Require Import Defined_proofs Defined2_proofs.
Import ListNotations.
Open Scope Z_scope.
From Verif Require Import Defined2_claims.

(** C82: a comparison of a fraction with an integer is defined exactly when the integer
    can be written over the denominator of the fraction in lowest terms. *)
Theorem C82_cmp_int_defined_iff : forall t op l z a, signed_rep t ->
  raw_bounded (rmax t) l -> 0 < den l -> in_rep t z = true -> value l = Some a ->
  (exists v, p_cmp (denote defaults) t op (RI l z) = Ok v) <-> common_fits (rmax t) a (inject_Z z).
Proof. exact c82_cmp_int_defined_iff. Qed.
Print Assumptions C82_cmp_int_defined_iff.

Theorem C82_int_cmp_defined_iff : forall t op z r b, signed_rep t ->
  raw_bounded (rmax t) r -> 0 < den r -> in_rep t z = true -> value r = Some b ->
  (exists v, p_cmp (denote defaults) t op (IR z r) = Ok v) <-> common_fits (rmax t) (inject_Z z) b.
Proof. exact c82_int_cmp_defined_iff. Qed.
Print Assumptions C82_int_cmp_defined_iff.

Example c82_cmp_int_defined_iff_case :
  common_fits (rmax int32) (1 # 2) (inject_Z (-1073741824)) /\
  p_cmp (denote defaults) int32 Lt (RI (mkRaw 2 4) (-1073741824)) = Ok false /\
  p_cmp (denote defaults) int32 Ge (IR (-1073741824) (mkRaw 2 4)) = Ok false /\
  ~ common_fits (rmax int32) (1 # 2) (inject_Z 1073741824) /\
  p_cmp (denote defaults) int32 Lt (RI (mkRaw 2 4) 1073741824) = UB Overflow.
Proof.
  split; [vm_compute; repeat split; intros; discriminate|]. split; [vm_compute; reflexivity|]. split; [vm_compute; reflexivity|].
  split; [|vm_compute; reflexivity]. intros [_ [_ [_ A]]]. now vm_compute in A.
Qed.

(** C81: the claim is false of fast_reduced_io, whose products depend on the signs the
    operands are written with: -65536/1 + 1/32768 is computed, 65536/-1 + 1/32768
    overflows. *)
Theorem C81_fast_refuted : exists l l' r,
  raw_bounded (rmax int32) l /\ raw_bounded (rmax int32) l' /\ raw_bounded (rmax int32) r /\
  same_value (value l) (value l') /\
  ~ agree (p_arith (denote fast_reduced_io) int32 Plus (RR l r)) (p_arith (denote fast_reduced_io) int32 Plus (RR l' r)).
Proof. exact c81_fast_refuted. Qed.
Print Assumptions C81_fast_refuted.

(** C83: round under the default policy is defined exactly when the least common
    multiple of 2 and the denominator in lowest terms fits, and the integer below can
    be written over that denominator. *)
Theorem C83_round_defined_iff : forall t v a, signed_rep t ->
  raw_bounded (rmax t) v -> 0 < den v -> value v = Some a ->
  (exists k, f_round (denote defaults) t v = Ok k) <-> round_fits (rmax t) a.
Proof. exact c83_round_defined_iff. Qed.
Print Assumptions C83_round_defined_iff.

(** 1/1073741825 cannot be rounded: its double denominator does not fit; nor can
    -2147483647/3, although -2147483646/3 can. *)
Example c83_round_defined_iff_case :
  round_fits (rmax int32) (1 # 1073741823) /\ f_round (denote defaults) int32 (mkRaw 1 1073741823) = Ok 0 /\
  ~ round_fits (rmax int32) (1 # 1073741825) /\ f_round (denote defaults) int32 (mkRaw 1 1073741825) = UB LibPrecond /\
  round_fits (rmax int32) (1 # 2147483646) /\ f_round (denote defaults) int32 (mkRaw 1 2147483646) = Ok 0 /\
  ~ round_fits (rmax int32) (-2147483647 # 3) /\ f_round (denote defaults) int32 (mkRaw (-2147483647) 3) = UB Overflow /\
  round_fits (rmax int32) (-2147483647 # 2) /\ f_round (denote defaults) int32 (mkRaw (-2147483647) 2) = Ok (-1073741823).
Proof.
  assert (P : forall M q, round_fits M q <-> (Z.lcm (low_den q) 2 <=? M) && (- M - 1 <=? Qfloor q * low_den q) = true).
  { intros M q. unfold round_fits. rewrite andb_true_iff, !Z.leb_le. tauto. }
  rewrite !P. repeat split; vm_compute; try reflexivity; intros; discriminate.
Qed.

(** C83: redenominate under the default policy is defined exactly when the numerator in
    lowest terms times the new denominator fits; ceil and floor also negate the new
    denominator, and round also rounds the product. *)
Theorem C83_redenominate_defined_iff : forall t v a d m, signed_rep t ->
  raw_bounded (rmax t) v -> in_rep t d = true -> value v = Some a ->
  (exists r, f_redenominate (denote defaults) t v d m = Ok r) <-> redenominate_fits (rmax t) m a d.
Proof. exact c83_redenominate_defined_iff. Qed.
Print Assumptions C83_redenominate_defined_iff.

Example c83_redenominate_defined_iff_case :
  redenominate_fits (rmax int32) round_floor (-5 # 7) (-429496729) /\
  f_redenominate (denote defaults) int32 (mkRaw 10 (-14)) (-429496729) round_floor = Ok (mkRaw 306783378 (-429496729)) /\
  ~ redenominate_fits (rmax int32) round_floor (-5 # 7) (-429496730) /\
  f_redenominate (denote defaults) int32 (mkRaw 10 (-14)) (-429496730) round_floor = UB Overflow /\
  redenominate_fits (rmax int32) round_trunc 0 (-2147483648) /\
  f_redenominate (denote defaults) int32 (mkRaw 0 5) (-2147483648) round_trunc = Ok (mkRaw 0 (-2147483648)) /\
  ~ redenominate_fits (rmax int32) round_ceil 0 (-2147483648) /\
  f_redenominate (denote defaults) int32 (mkRaw 0 5) (-2147483648) round_ceil = UB Overflow.
Proof.
  split; [split; vm_compute; intros; discriminate|]. split; [vm_compute; reflexivity|].
  split; [intros [A _]; now vm_compute in A|]. split; [vm_compute; reflexivity|].
  split; [split; vm_compute; (intros; discriminate) || exact I|]. split; [vm_compute; reflexivity|].
  split; [intros [_ A]; now apply A|]. vm_compute; reflexivity.
Qed.
