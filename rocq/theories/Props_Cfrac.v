(** Property theorems: C122: continued fractions by trunc, -, is_zero and reciprocal..

    Each is closed by the lemma of the same name in Cfrac_claims.v. *)

From Coq Require Import ZArith QArith List Bool Lia.
From Verif Require Import Machine Raw Ops Spec Fraction Fmath Fmath_spec Mixed_spec Cfrac Cfrac_spec.
From Verif Require Import Machine_proofs Value_proofs Ops_proofs Algebra_proofs Literals_proofs Defined_proofs Cfrac_proofs.
Import ListNotations.
Open Scope Z_scope.
From Verif Require Import Cfrac_claims.

(** C122: under every policy, for every fraction without the least integer in it, the loop
    meets no undefined behaviour and ends after at most 2 log2 |den| + 2 rounds with the
    continued fraction of the value. *)
Theorem C122_total : forall o t v q fuel, signed_rep t -> raw_bounded (rmax t) v -> value v = Some q ->
  2 * Z.log2 (Z.abs (den v)) + 2 <= Z.of_nat fuel ->
  exists l, quotients (denote o) t fuel v = Some (Ok l) /\ is_cf q l /\
    Z.of_nat (length l) <= 2 * Z.log2 (Z.abs (den v)) + 2.
Proof. exact c122_total. Qed.
Print Assumptions C122_total.

(** C122: whenever the loop ends, with whatever number of rounds, it ends with that list. *)
Theorem C122_only : forall o t v q fuel r, signed_rep t -> raw_bounded (rmax t) v -> value v = Some q ->
  quotients (denote o) t fuel v = Some r -> exists l, r = Ok l /\ is_cf q l.
Proof. exact c122_only. Qed.
Print Assumptions C122_only.

(** C122: the list spells the value, and a value has only one. *)
Theorem C122_value : forall q l, is_cf q l -> (cf_value l == q)%Q /\ forall l', is_cf q l' -> l' = l.
Proof. exact c122_value. Qed.
Print Assumptions C122_value.

(** C122: so two fractions, of any types and under any policies, have the same quotients
    exactly if they are equal. *)
Theorem C122_same_iff : forall o o' t t' v v' q q' fuel fuel' l l', signed_rep t -> signed_rep t' ->
  raw_bounded (rmax t) v -> raw_bounded (rmax t') v' -> value v = Some q -> value v' = Some q' ->
  quotients (denote o) t fuel v = Some (Ok l) -> quotients (denote o') t' fuel' v' = Some (Ok l') ->
  l = l' <-> (q == q')%Q.
Proof. exact c122_same_iff. Qed.
Print Assumptions C122_same_iff.

(** C122: a1 + 1/(a2 + 1/(...)) computed with the operators, in any type and under any
    policy, meets no undefined behaviour either if the lowest terms of the value fit, and
    is the value in lowest terms, up to the signs. *)
Theorem C122_rebuild : forall o t n d l, signed_rep t -> d <> 0 -> Z.gcd n d = 1 -> Z.abs n <= rmax t -> Z.abs d <= rmax t ->
  is_cf (inject_Z n / inject_Z d) l ->
  rebuild (denote o) t l = Ok (mkRaw n d) \/ rebuild (denote o) t l = Ok (mkRaw (- n) (- d)).
Proof. exact c122_rebuild. Qed.
Print Assumptions C122_rebuild.

(** C122: under a policy that returns lowest terms, what was taken apart is put together
    again, without undefined behaviour. *)
Theorem C122_round_trip : forall o o' t v fuel l, signed_rep t -> raw_bounded (rmax t) v -> den v <> 0 -> canonical v ->
  output_canonical o' = true -> quotients (denote o) t fuel v = Some (Ok l) -> rebuild (denote o') t l = Ok v.
Proof. exact c122_round_trip. Qed.
Print Assumptions C122_round_trip.

(** C122: the least integer is the exception: for INT_MIN/3 the default policy leaves the
    range of std::gcd, for INT_MIN/-1 under fast the integer part overflows. *)
Theorem C122_least_refuted : exists v w q r, wf_raw int32 v /\ wf_raw int32 w /\ value v = Some q /\ value w = Some r /\
  quotients (denote defaults) int32 1 v = Some (UB LibPrecond) /\ quotients (denote Fast) int32 1 w = Some (UB Overflow).
Proof. exact c122_least_refuted. Qed.
Print Assumptions C122_least_refuted.

(** -649/200 = -3 + 1/(-4 + 1/(-12 + 1/-4)), written 1298/-400; 1/2147483647 at the end of the
    range. *)
Example C122_nonvacuous :
  let v := mkRaw 1298 (-400) in let l := [-3; -4; -12; -4] in
  signed_rep int32 /\ raw_bounded (rmax int32) v /\ (exists q, value v = Some q) /\ 2 * Z.log2 (Z.abs (den v)) + 2 <= Z.of_nat 18 /\
  quotients (denote Fast) int32 18 v = Some (Ok l) /\ rebuild (denote defaults) int32 l = Ok (mkRaw (-649) 200) /\
  quotients (denote defaults) int32 18 (mkRaw 1 2147483647) = Some (Ok [0; 2147483647]) /\
  rebuild (denote defaults) int32 [0; 2147483647] = Ok (mkRaw 1 2147483647).
Proof.
  cbv zeta. split; [split; [unfold wf_rep; cbn; lia|reflexivity]|]. split; [split; vm_compute; discriminate|].
  split; [eexists; reflexivity|]. split; [vm_compute; discriminate|]. split; [vm_compute; reflexivity|].
  split; [vm_compute; reflexivity|]. split; vm_compute; reflexivity.
Qed.
