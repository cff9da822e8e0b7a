(** Property theorems: the laws of rounding.

    Each is closed by the lemma of the same name in Rlaws_claims.v. *)

From Coq Require Import ZArith QArith Qabs Bool Lia Lqa.
From Verif Require Import Machine Raw Ops Spec Fraction Fraction_spec Fmath Fmath_spec Rlaws_spec.
From Verif Require Import Machine_proofs Value_proofs Rlaws_proofs Rlaws2_proofs.
Open Scope Z_scope.
From Verif Require Import Rlaws_claims.

(** C114: trunc, floor and round keep the order. *)
Theorem C114_monotone : forall o t v w m a b p q, wf_rep t -> rsigned t = true -> wf_raw t v -> wf_raw t w ->
  compares_well o m v -> compares_well o m w -> value v = Some p -> value w = Some q ->
  f_to_whole (denote o) t v m = Ok a -> f_to_whole (denote o) t w m = Ok b ->
  m <> round_ceil -> (p <= q)%Q -> a <= b.
Proof. exact c114_monotone. Qed.
Print Assumptions C114_monotone.

(** C114: ceil does not: it puts every fraction strictly between -1 and 0 above zero. This is
    the only exception. *)
Theorem C114_ceil_order : forall t v w a b p q, wf_rep t -> rsigned t = true -> wf_raw t v -> wf_raw t w ->
  value v = Some p -> value w = Some q -> f_ceil t v = Ok a -> f_ceil t w = Ok b -> (p <= q)%Q ->
  (b < a <-> tiny_negative p /\ (q == 0)%Q).
Proof. exact c114_ceil_order. Qed.
Print Assumptions C114_ceil_order.

(** C114: whole numbers are left alone in every mode, however they are written. *)
Theorem C114_whole : forall o t v m k n, wf_rep t -> rsigned t = true -> wf_raw t v -> compares_well o m v ->
  same_value (value v) (Some (inject_Z n)) -> f_to_whole (denote o) t v m = Ok k -> k = n.
Proof. exact c114_whole. Qed.
Print Assumptions C114_whole.

(** C114: the result is less than one away, in the mode ceil less than two. *)
Theorem C114_near : forall o t v m k q, wf_rep t -> rsigned t = true -> wf_raw t v -> compares_well o m v ->
  value v = Some q -> f_to_whole (denote o) t v m = Ok k ->
  (m <> round_ceil -> (Qabs (inject_Z k - q) < 1)%Q) /\ (Qabs (inject_Z k - q) < 2)%Q.
Proof. exact c114_near. Qed.
Print Assumptions C114_near.

(** C114: opposite fractions: trunc gives opposite results; floor and ceil do exactly for
    zero and from one on; round does exactly when neither is half an odd number or strictly
    between a half and one. *)
Theorem C114_opposite : forall o t v w p q, wf_rep t -> rsigned t = true -> wf_raw t v -> wf_raw t w ->
  value v = Some p -> value w = Some q -> (q == - p)%Q ->
  (forall a b, f_trunc t v = Ok a -> f_trunc t w = Ok b -> b = - a) /\
  (forall a b, f_ceil t v = Ok a -> f_floor t w = Ok b -> (b = - a <-> (p == 0)%Q \/ (1 <= Qabs p)%Q)) /\
  (forall a b, compares_well o round_round v -> compares_well o round_round w ->
    f_round (denote o) t v = Ok a -> f_round (denote o) t w = Ok b ->
    (b = - a <-> ~ whole (p + (1 # 2)) /\ ~ (1 # 2 < Qabs p < 1)%Q)).
Proof. exact c114_opposite. Qed.
Print Assumptions C114_opposite.

(** C114: adding a whole number before or after rounding: exactly when it is the same. *)
Theorem C114_shift : forall o t v w m a b p q n, wf_rep t -> rsigned t = true -> wf_raw t v -> wf_raw t w ->
  compares_well o m v -> compares_well o m w -> value v = Some p -> value w = Some q -> (q == p + inject_Z n)%Q ->
  f_to_whole (denote o) t v m = Ok a -> f_to_whole (denote o) t w m = Ok b ->
  (b = a + n <->
   match m with
   | round_trunc => whole p \/ (0 <= p /\ 0 <= q)%Q \/ (p <= 0 /\ q <= 0)%Q
   | round_floor | round_ceil => n = 0 \/ ~ tiny_negative p /\ ~ tiny_negative q
   | round_round => n = 0 \/ ~ below_minus_half p /\ ~ below_minus_half q
   end).
Proof. exact c114_shift. Qed.
Print Assumptions C114_shift.

Example C114_whole_nonvacuous :
  f_to_whole (denote defaults) int32 (mkRaw (-7) 3) round_floor = Ok (-3) /\
  f_to_whole (denote defaults) int32 (mkRaw (-7) 4) round_floor = Ok (-2) /\
  f_ceil int32 (mkRaw (-1) 3) = Ok 1 /\ f_ceil int32 (mkRaw 0 3) = Ok 0 /\ tiny_negative (-1 # 3) /\
  f_to_whole (denote Safe) int32 (mkRaw 12 (-4)) round_round = Ok (-3) /\
  f_round (denote defaults) int32 (mkRaw 5 2) = Ok 3 /\ f_round (denote defaults) int32 (mkRaw (-5) 2) = Ok (-2) /\
  f_floor int32 (mkRaw (-1) 3) = Ok 0 /\ f_floor int32 (mkRaw 2 3) = Ok 0 /\ f_floor int32 (mkRaw (-4) 3) = Ok (-2) /\
  compares_well defaults round_round (mkRaw 5 2).
Proof.
  repeat match goal with |- _ /\ _ => split end; try (vm_compute; reflexivity); [split; reflexivity|]. intros _. now left.
Qed.

(** C114: redenominating again to the same denominator changes nothing, in every mode. *)
Theorem C114_again : forall o t v d m r s, wf_rep t -> rsigned t = true -> wf_raw t v ->
  compares_well o m v -> compares_well o m r -> in_rep t d = true -> d <> 0 ->
  f_redenominate (denote o) t v d m = Ok r -> f_redenominate (denote o) t r d m = Ok s -> s = r.
Proof. exact c114_again. Qed.
Print Assumptions C114_again.

(** C114: redenominating keeps the order, except in the mode ceil. *)
Theorem C114_redenominate_monotone : forall o t v w d m r s p q, wf_rep t -> rsigned t = true -> wf_raw t v -> wf_raw t w ->
  compares_well o m v -> compares_well o m w -> m <> round_ceil -> in_rep t d = true -> 0 < d ->
  value v = Some p -> value w = Some q -> (p <= q)%Q ->
  f_redenominate (denote o) t v d m = Ok r -> f_redenominate (denote o) t w d m = Ok s -> num r <= num s.
Proof. exact c114_redenominate_monotone. Qed.
Print Assumptions C114_redenominate_monotone.

(** C114: going to a coarser denominator through a finer one that it divides makes no
    difference in the modes trunc and ceil. *)
Theorem C114_through_finer : forall o t v c d m r s u, wf_rep t -> rsigned t = true -> wf_raw t v ->
  m = round_trunc \/ m = round_ceil ->
  0 < c -> d <> 0 -> in_rep t d = true -> in_rep t (c * d) = true ->
  f_redenominate (denote o) t v (c * d) m = Ok r -> f_redenominate (denote o) t r d m = Ok s ->
  f_redenominate (denote o) t v d m = Ok u -> s = u.
Proof. exact c114_through_finer. Qed.
Print Assumptions C114_through_finer.

(** C114: in the mode floor it does, exactly when the value is less than one fine unit above
    minus one coarse unit: the direct result is then 0. *)
Theorem C114_floor_through_finer : forall o t v c d r s u q, wf_rep t -> rsigned t = true -> wf_raw t v ->
  0 < c -> d <> 0 -> in_rep t d = true -> in_rep t (c * d) = true -> value v = Some q ->
  f_redenominate (denote o) t v (c * d) round_floor = Ok r -> f_redenominate (denote o) t r d round_floor = Ok s ->
  f_redenominate (denote o) t v d round_floor = Ok u ->
  (s <> u <-> 1 < c /\ (- inject_Z c < q * inject_Z (Z.abs (c * d)) < 1 - inject_Z c)%Q).
Proof. exact c114_floor_through_finer. Qed.
Print Assumptions C114_floor_through_finer.

(** -3/8 to quarters and then to halves is -1/2, at once it is 0; rounding 3/16 to
    eighths and then to halves, each time to the nearest, is the usual double rounding. *)
Example C114_redenominate_nonvacuous :
  f_redenominate (denote defaults) int32 (mkRaw (-3) 8) 4 round_floor = Ok (mkRaw (-2) 4) /\
  f_redenominate (denote defaults) int32 (mkRaw (-2) 4) 2 round_floor = Ok (mkRaw (-1) 2) /\
  f_redenominate (denote defaults) int32 (mkRaw (-3) 8) 2 round_floor = Ok (mkRaw 0 2) /\
  f_redenominate (denote defaults) int32 (mkRaw (-3) 8) 4 round_ceil = Ok (mkRaw (-1) 4) /\
  f_redenominate (denote defaults) int32 (mkRaw (-1) 4) 2 round_ceil = Ok (mkRaw 1 2) /\
  f_redenominate (denote defaults) int32 (mkRaw (-3) 8) 2 round_ceil = Ok (mkRaw 1 2) /\
  f_redenominate (denote defaults) int32 (mkRaw 3 16) 8 round_round = Ok (mkRaw 2 8) /\
  f_redenominate (denote defaults) int32 (mkRaw 2 8) 2 round_round = Ok (mkRaw 1 2) /\
  f_redenominate (denote defaults) int32 (mkRaw 3 16) 2 round_round = Ok (mkRaw 0 2) /\
  f_redenominate (denote defaults) int32 (mkRaw 5 7) 12 round_trunc = Ok (mkRaw 8 12) /\
  f_redenominate (denote defaults) int32 (mkRaw 8 12) 12 round_trunc = Ok (mkRaw 8 12).
Proof. repeat match goal with |- _ /\ _ => split end; vm_compute; reflexivity. Qed.
