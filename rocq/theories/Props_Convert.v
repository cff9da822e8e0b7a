(** Property theorems: order, distinctness and round trips of conversions to floating point.

    Each is closed by the lemma of the same name in Convert_claims.v. *)

From Coq Require Import ZArith QArith Qabs Qreduction Lia Lqa.
From Flocq Require Import IEEE754.Binary IEEE754.Bits.
From Verif Require Import Machine Raw Ops Spec Fraction Float Float_spec Float3_spec Mixed_spec.
From Verif Require Import Machine_proofs Value_proofs Ops_proofs Algebra_proofs Tight_proofs Literals_proofs Float_proofs Float2_proofs Float3_proofs.
Open Scope Z_scope.

Ltac zdec := first [exact (fun x => match x with eq_refl => I end) | discriminate | reflexivity].
From Verif Require Import Convert_claims.

(** C72: conversions to floating point keep the order of fractions whose reduced
    parts the floating-point type represents exactly. *)
Theorem C72_monotone : forall t v w p q,
  wf_rep t -> symmetric t v -> symmetric t w -> value v = Some p -> value w = Some q -> (p <= q)%Q ->
  (rmax t <= 2 ^ 127 -> short_parts 24 p -> short_parts 24 q -> converted (to_float t) v w Qle) /\
  (rmax t <= 2 ^ 1023 -> short_parts 53 p -> short_parts 53 q -> converted (to_double t) v w Qle) /\
  (rmax t <= 2 ^ 16383 -> short_parts 64 p -> short_parts 64 q -> converted (to_long_double t) v w Qle).
Proof. exact c72_monotone. Qed.
Print Assumptions C72_monotone.

Example C72_monotone_example :
  symmetric int32 (mkRaw 1 3) /\ symmetric int32 (mkRaw (-12345678) (-16777213)) /\
  value (mkRaw 1 3) = Some (1 # 3)%Q /\ short_parts 24 (1 # 3) /\ short_parts 24 (12345678 # 16777213) /\
  (1 # 3 <= 12345678 # 16777213)%Q.
Proof.
  split; [repeat split; cbn; lia|]. split; [repeat split; cbn; lia|]. split; [reflexivity|].
  split; [split; [exists 1, 0|exists 3, 0]; cbn; lia|].
  split; [split; [exists 12345678, 0|exists 16777213, 0]; vm_compute; intuition congruence|]. vm_compute. congruence.
Qed.

(** C72: for larger parts the order can be reversed: 5592404/5592405 is less than
    16777217/16777219, its float is greater. *)
Theorem C72_monotone_refuted : exists v w p q x y px qy,
  symmetric int32 v /\ symmetric int32 w /\ value v = Some p /\ value w = Some q /\ (p < q)%Q /\
  to_float int32 v = Ok x /\ to_float int32 w = Ok y /\ float_value x = Some px /\ float_value y = Some qy /\ (qy < px)%Q.
Proof. exact c72_monotone_refuted. Qed.
Print Assumptions C72_monotone_refuted.

(** C72: the same with double and 64-bit representations. *)
Theorem C72_monotone_double_refuted : exists v w p q x y px qy,
  symmetric int64 v /\ symmetric int64 w /\ value v = Some p /\ value w = Some q /\ (p < q)%Q /\
  to_double int64 v = Ok x /\ to_double int64 w = Ok y /\ float_value x = Some px /\ float_value y = Some qy /\ (qy < px)%Q.
Proof. exact c72_monotone_double_refuted. Qed.
Print Assumptions C72_monotone_double_refuted.

(** C72: the sign is always kept, and only zero becomes zero. *)
Theorem C72_sign : forall t v q,
  wf_rep t -> symmetric t v -> value v = Some q ->
  (rmax t <= 2 ^ 126 -> exists x qx, to_float t v = Ok x /\ float_value x = Some qx /\
     ((0 < qx <-> 0 < q) /\ (qx < 0 <-> q < 0) /\ (qx == 0 <-> q == 0))%Q) /\
  (rmax t <= 2 ^ 1022 -> exists x qx, to_double t v = Ok x /\ float_value x = Some qx /\
     ((0 < qx <-> 0 < q) /\ (qx < 0 <-> q < 0) /\ (qx == 0 <-> q == 0))%Q) /\
  (rmax t <= 2 ^ 16382 -> exists x qx, to_long_double t v = Ok x /\ float_value x = Some qx /\
     ((0 < qx <-> 0 < q) /\ (qx < 0 <-> q < 0) /\ (qx == 0 <-> q == 0))%Q).
Proof. exact c72_sign. Qed.
Print Assumptions C72_sign.

(** C72: opposite fractions become opposite numbers. *)
Theorem C72_opposite : forall t v w p q,
  wf_rep t -> symmetric t v -> symmetric t w -> value v = Some p -> value w = Some q -> (q == - p)%Q ->
  (rmax t <= 2 ^ 127 -> converted (to_float t) v w (fun a b => b == - a)%Q) /\
  (rmax t <= 2 ^ 1023 -> converted (to_double t) v w (fun a b => b == - a)%Q) /\
  (rmax t <= 2 ^ 16383 -> converted (to_long_double t) v w (fun a b => b == - a)%Q).
Proof. exact c72_opposite. Qed.
Print Assumptions C72_opposite.

Example C72_opposite_example :
  symmetric int32 (mkRaw 2147483647 3) /\ symmetric int32 (mkRaw 2147483647 (-3)) /\
  value (mkRaw 2147483647 3) = Some (2147483647 # 3)%Q /\ value (mkRaw 2147483647 (-3)) = Some (- 2147483647 # 3)%Q /\
  rmax int32 <= 2 ^ 126.
Proof. split; [repeat split; cbn; lia|]. split; [repeat split; cbn; lia|]. split; [reflexivity|]. split; [reflexivity|]. cbn; lia. Qed.

(** C73: the floating-point numbers obtained from fractions with small reduced
    parts compare exactly as the fractions do; in particular distinct fractions
    become distinct numbers.  The bound is 2^11 for float, 2^26 for double and 2^31
    for long double. *)
Theorem C73_compare : forall t v w p q,
  wf_rep t -> symmetric t v -> symmetric t w -> value v = Some p -> value w = Some q ->
  (rmax t <= 2 ^ 126 -> parts_at_most (2 ^ 11) p -> parts_at_most (2 ^ 11) q ->
     converted (to_float t) v w (fun a b => (a ?= b)%Q = (p ?= q)%Q)) /\
  (rmax t <= 2 ^ 1022 -> parts_at_most (2 ^ 26) p -> parts_at_most (2 ^ 26) q ->
     converted (to_double t) v w (fun a b => (a ?= b)%Q = (p ?= q)%Q)) /\
  (rmax t <= 2 ^ 16382 -> parts_at_most (2 ^ 31) p -> parts_at_most (2 ^ 31) q ->
     converted (to_long_double t) v w (fun a b => (a ?= b)%Q = (p ?= q)%Q)).
Proof. exact c73_compare. Qed.
Print Assumptions C73_compare.

Example C73_compare_example :
  symmetric int32 (mkRaw 2047 2048) /\ value (mkRaw 2047 2048) = Some (2047 # 2048)%Q /\ parts_at_most (2 ^ 11) (2047 # 2048) /\
  symmetric int32 (mkRaw (-2046) (-2047)) /\ value (mkRaw (-2046) (-2047)) = Some (2046 # 2047)%Q /\ parts_at_most (2 ^ 11) (2046 # 2047).
Proof. repeat split; vm_compute; congruence. Qed.

(** C73: as long double, all the fractions over int32 but those with a minimal
    part compare as the fractions do. *)
Theorem C73_int32_long_double : forall v w p q,
  symmetric int32 v -> symmetric int32 w -> value v = Some p -> value w = Some q ->
  converted (to_long_double int32) v w (fun a b => (a ?= b)%Q = (p ?= q)%Q).
Proof. exact c73_int32_long_double. Qed.
Print Assumptions C73_int32_long_double.

(** C73: as double, distinct fractions over int32 can become the same number. *)
Theorem C73_int32_double_refuted : exists v w p q x,
  symmetric int32 v /\ symmetric int32 w /\ value v = Some p /\ value w = Some q /\ ~ (p == q)%Q /\
  to_double int32 v = Ok x /\ to_double int32 w = Ok x.
Proof. exact c73_int32_double_refuted. Qed.
Print Assumptions C73_int32_double_refuted.

(** C74: fractions whose value has few enough significant bits become exactly that
    value, and converting back gives the same value; under a policy with canonical
    results a fraction in lowest terms comes back unchanged. *)
Theorem C74_round_trip : forall o t v q k e,
  output_canonical o = true -> signed_rep t -> symmetric t v -> value v = Some q ->
  significant k e q -> k + Z.abs e <= rbits t - 2 ->
  (rbits t <= 128 -> k <= 23 ->
     exists x r, to_float t v = Ok x /\ same_value (float_value x) (Some q) /\
       to_fraction_float (denote o) t little x = Ok r /\ same_value (value r) (Some q) /\ (canonical v -> r = v)) /\
  (54 <= rbits t <= 1024 -> k <= 52 ->
     exists x r, to_double t v = Ok x /\ same_value (float_value x) (Some q) /\
       to_fraction_double (denote o) t little x = Ok r /\ same_value (value r) (Some q) /\ (canonical v -> r = v)).
Proof. exact c74_round_trip. Qed.
Print Assumptions C74_round_trip.

Example C74_example :
  symmetric int64 (mkRaw (-1099511627775) 1048576) /\ canonical (mkRaw (-1099511627775) 1048576) /\
  significant 39 19 (-1099511627775 # 1048576) /\ 39 + Z.abs 19 <= rbits int64 - 2.
Proof.
  split; [repeat split; cbn; lia|]. split; [right; split; [cbn; lia|reflexivity]|]. split; [|cbn; lia].
  exists 1099511627775. split; [vm_compute; intuition congruence|reflexivity].
Qed.
