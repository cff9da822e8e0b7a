(** Property theorems: comparisons of every policy.

    Each is closed by the lemma of the same name in Cmp_claims.v. *)

From Coq Require Import ZArith QArith Qabs Bool Lia.
From Verif Require Import Machine Raw Ops Spec.
From Verif Require Import Machine_proofs Value_proofs Ops_proofs Total_proofs Cmp_proofs Order_proofs Reverse_proofs Laws_proofs.
Open Scope Z_scope.
From Verif Require Import Cmp_claims.

(** C12 *)
Theorem C12_equality_exact : forall o t a b,
  wf_rep t -> rsigned t = true -> wf_args t a ->
  p_cmp (denote o) t Eq a = Ok b ->
  (b = true <-> exists x y, left_value a = Some x /\ right_value a = Some y /\ (x == y)%Q).
Proof. exact c12_equality_exact. Qed.
Print Assumptions C12_equality_exact.

(** C12: != is the negation of ==, undefined behaviour included. *)
Theorem C12_not_equal_is_negation : forall o t a,
  p_cmp (denote o) t Ne a = (do b <- p_cmp (denote o) t Eq a; Ok (negb b)).
Proof. exact c12_not_equal_is_negation. Qed.
Print Assumptions C12_not_equal_is_negation.

(** C12: == needs no undefined behaviour inside the bound, for signed and
    unsigned representations. *)
Theorem C12_equality_total : forall o t a B,
  wf_rep t -> wf_args t a -> args_bounded B a -> B <= rmax t -> B * B <= rmax t ->
  exists b, p_cmp (denote o) t Eq a = Ok b /\
  (b = true <-> exists x y, left_value a = Some x /\ right_value a = Some y /\ (x == y)%Q).
Proof. exact c12_equality_total. Qed.
Print Assumptions C12_equality_total.

Example C12_nonvacuous :
  p_cmp (denote defaults) int32 Eq (RR (mkRaw 2 4) (mkRaw (-3) (-6))) = Ok true /\
  p_cmp (denote Fast) int32 Eq (RI (mkRaw 8 4) 2) = Ok true /\
  p_cmp (denote Fast) int32 Eq (RI (mkRaw 8 0) 2) = Ok false /\
  args_bounded 46340 (RR (mkRaw 46340 1) (mkRaw 1 (-46339))) /\ 46340 * 46340 <= rmax int32.
Proof. repeat split; vm_compute; congruence. Qed.

(** C13: policies built on safe (or that normalise the signs of their inputs)
    order any two fractions exactly, whatever the signs of the denominators.
    [>] and [>=] follow with C16. *)
Theorem C13_order_exact : forall o t l r b x y op,
  wf_rep t -> rsigned t = true -> wf_raw t l -> wf_raw t r ->
  built_on_safe o = true \/ normalises_inputs o = true ->
  value l = Some x -> value r = Some y -> op = Lt \/ op = Le ->
  p_cmp (denote o) t op (RR l r) = Ok b ->
  (b = true <-> match op with Lt => x < y | _ => x <= y end)%Q.
Proof. exact c13_order_exact. Qed.
Print Assumptions C13_order_exact.

(** C13: the other policies do so for denominators of the same sign. *)
Theorem C13_fast_order_same_sign : forall o t l r b x y op,
  wf_rep t -> rsigned t = true -> wf_raw t l -> wf_raw t r -> 0 < den l * den r ->
  value l = Some x -> value r = Some y -> op = Lt \/ op = Le ->
  p_cmp (denote o) t op (RR l r) = Ok b ->
  (b = true <-> match op with Lt => x < y | _ => x <= y end)%Q.
Proof. exact c13_fast_order_same_sign. Qed.
Print Assumptions C13_fast_order_same_sign.

(** C13: and reverse the order when the signs of the denominators differ. *)
Theorem C13_fast_order_reversed : forall o t l r b x y op,
  wf_rep t -> rsigned t = true -> wf_raw t l -> wf_raw t r -> den l * den r < 0 ->
  built_on_safe o = false -> normalises_inputs o = false ->
  value l = Some x -> value r = Some y -> op = Lt \/ op = Le ->
  p_cmp (denote o) t op (RR l r) = Ok b ->
  (b = true <-> match op with Lt => y < x | _ => y <= x end)%Q.
Proof. exact c13_fast_order_reversed. Qed.
Print Assumptions C13_fast_order_reversed.

(** C13: so under fast the claim fails, and < is cyclic: with a = 0/1,
    b = 2/-1, c = -2/-1 it gives a < b < c < a. *)
Theorem C13_fast_order_refuted : exists a b c,
  value a <> None /\ value b <> None /\ value c <> None /\
  p_cmp fast int32 Lt (RR a b) = Ok true /\
  p_cmp fast int32 Lt (RR b c) = Ok true /\
  p_cmp fast int32 Lt (RR c a) = Ok true.
Proof. exact c13_fast_order_refuted. Qed.
Print Assumptions C13_fast_order_refuted.

(** C13: the order comparisons need no undefined behaviour inside the bound
    (C14 is included: [a] may have an integer operand). *)
Theorem C13_order_total : forall o t op a B,
  wf_rep t -> wf_args t a -> args_bounded B a -> B <= rmax t -> B * B <= rmax t ->
  order_domain o a ->
  p_cmp (denote o) t op a = Ok (exact_cmp_opt op (left_value a) (right_value a)).
Proof. exact c13_order_total. Qed.
Print Assumptions C13_order_total.

Example C13_nonvacuous :
  built_on_safe defaults = true /\ normalises_inputs fast_reduced_i = false /\
  order_domain defaults (RR (mkRaw 1 (-2)) (mkRaw (-1) 3)) /\
  p_cmp (denote defaults) int32 Lt (RR (mkRaw 1 (-2)) (mkRaw (-1) 3)) = Ok true /\
  p_cmp (denote Fast) int32 Lt (RR (mkRaw 1 (-2)) (mkRaw (-1) 3)) = Ok false /\
  p_cmp (denote Fast) int32 Lt (RR (mkRaw 1 (-2)) (mkRaw 1 (-3))) = Ok true.
Proof. split; [|split; [|split; [right; right; left|]]]; repeat split; vm_compute; reflexivity. Qed.

(** C14: a fraction with a positive denominator is ordered exactly against
    integers. *)
Theorem C14_order_positive : forall o t f i b c x op,
  wf_rep t -> rsigned t = true -> wf_raw t f -> in_rep t i = true -> 0 < den f ->
  value f = Some x -> op = Lt \/ op = Le ->
  p_cmp (denote o) t op (RI f i) = Ok b -> p_cmp (denote o) t op (IR i f) = Ok c ->
  (b = true <-> match op with Lt => x < inject_Z i | _ => x <= inject_Z i end)%Q /\
  (c = true <-> match op with Lt => inject_Z i < x | _ => inject_Z i <= x end)%Q.
Proof. exact c14_order_positive. Qed.
Print Assumptions C14_order_positive.

(** C14: a fraction with a negative denominator is ordered the wrong way round
    by every policy that does not normalise the signs of its inputs; these
    include safe, fast and the default policy. *)
Theorem C14_order_negative_reversed : forall o t f i b c x op,
  wf_rep t -> rsigned t = true -> wf_raw t f -> in_rep t i = true -> den f < 0 ->
  normalises_inputs o = false ->
  value f = Some x -> op = Lt \/ op = Le ->
  p_cmp (denote o) t op (RI f i) = Ok b -> p_cmp (denote o) t op (IR i f) = Ok c ->
  (b = true <-> match op with Lt => inject_Z i < x | _ => inject_Z i <= x end)%Q /\
  (c = true <-> match op with Lt => x < inject_Z i | _ => x <= inject_Z i end)%Q.
Proof. exact c14_order_negative_reversed. Qed.
Print Assumptions C14_order_negative_reversed.

(** C14: policies that normalise the signs of their inputs are exact. *)
Theorem C14_order_normalising : forall o t f i b c x op,
  wf_rep t -> rsigned t = true -> wf_raw t f -> in_rep t i = true ->
  normalises_inputs o = true ->
  value f = Some x -> op = Lt \/ op = Le ->
  p_cmp (denote o) t op (RI f i) = Ok b -> p_cmp (denote o) t op (IR i f) = Ok c ->
  (b = true <-> match op with Lt => x < inject_Z i | _ => x <= inject_Z i end)%Q /\
  (c = true <-> match op with Lt => inject_Z i < x | _ => inject_Z i <= x end)%Q.
Proof. exact c14_order_normalising. Qed.
Print Assumptions C14_order_normalising.

(** C14: witness against the claim, under the default policy: 1/-2 < 0 is
    false and 1/-2 > 0 is true. *)
Theorem C14_order_refuted : exists f x, value f = Some x /\ (x < 0)%Q /\
  p_cmp (denote defaults) int32 Lt (RI f 0) = Ok false /\
  p_cmp (denote defaults) int32 Gt (RI f 0) = Ok true.
Proof. exact c14_order_refuted. Qed.
Print Assumptions C14_order_refuted.

Example C14_nonvacuous :
  normalises_inputs defaults = false /\
  normalises_inputs (ReducedInput Fast normalize_signs_mode) = true /\
  p_cmp (denote defaults) int32 Lt (RI (mkRaw (-7) 2) (-3)) = Ok true /\
  p_cmp (denote defaults) int32 Lt (IR (-3) (mkRaw (-7) 2)) = Ok false /\
  p_cmp (denote (ReducedInput Fast normalize_signs_mode)) int32 Lt (RI (mkRaw 7 (-2)) (-3)) = Ok true /\
  p_cmp (denote defaults) int32 Lt (RI (mkRaw 7 (-2)) (-3)) = Ok false.
Proof. repeat split; vm_compute; reflexivity. Qed.

(** C15: for policies built on safe or normalising their inputs.  The first
    three clauses do not need defined operands. *)
Theorem C15_strict_weak_ordering : forall o t,
  wf_rep t -> rsigned t = true ->
  built_on_safe o = true \/ normalises_inputs o = true ->
  (forall a v, wf_raw t a -> p_cmp (denote o) t Lt (RR a a) = Ok v -> v = false) /\
  (forall a b v, wf_raw t a -> wf_raw t b ->
     p_cmp (denote o) t Lt (RR a b) = Ok true -> p_cmp (denote o) t Lt (RR b a) = Ok v -> v = false) /\
  (forall a b c v, wf_raw t a -> wf_raw t b -> wf_raw t c ->
     p_cmp (denote o) t Lt (RR a b) = Ok true -> p_cmp (denote o) t Lt (RR b c) = Ok true ->
     p_cmp (denote o) t Lt (RR a c) = Ok v -> v = true) /\
  (forall a b c u v, wf_raw t a -> wf_raw t b -> wf_raw t c ->
     value a <> None -> value b <> None -> value c <> None ->
     p_cmp (denote o) t Lt (RR a b) = Ok false -> p_cmp (denote o) t Lt (RR b a) = Ok false ->
     p_cmp (denote o) t Lt (RR b c) = Ok false -> p_cmp (denote o) t Lt (RR c b) = Ok false ->
     p_cmp (denote o) t Lt (RR a c) = Ok u -> p_cmp (denote o) t Lt (RR c a) = Ok v ->
     u = false /\ v = false) /\
  (forall a b u v e, wf_raw t a -> wf_raw t b -> value a <> None -> value b <> None ->
     p_cmp (denote o) t Lt (RR a b) = Ok u -> p_cmp (denote o) t Lt (RR b a) = Ok v ->
     p_cmp (denote o) t Eq (RR a b) = Ok e ->
     (u = false /\ v = false <-> e = true)).
Proof. exact c15_strict_weak_ordering. Qed.
Print Assumptions C15_strict_weak_ordering.

(** C15: with an undefined fraction in the range < is not a strict weak
    ordering: 1/1 and 0/0, and 0/0 and 2/1, are incomparable, yet 1/1 < 2/1. *)
Theorem C15_undefined_refuted : exists a u b,
  p_cmp (denote defaults) int32 Lt (RR a u) = Ok false /\
  p_cmp (denote defaults) int32 Lt (RR u a) = Ok false /\
  p_cmp (denote defaults) int32 Lt (RR u b) = Ok false /\
  p_cmp (denote defaults) int32 Lt (RR b u) = Ok false /\
  p_cmp (denote defaults) int32 Lt (RR a b) = Ok true.
Proof. exact c15_undefined_refuted. Qed.
Print Assumptions C15_undefined_refuted.

Example C15_nonvacuous :
  p_cmp (denote defaults) int32 Lt (RR (mkRaw 1 (-2)) (mkRaw (-1) 3)) = Ok true /\
  p_cmp (denote defaults) int32 Lt (RR (mkRaw (-1) 3) (mkRaw 0 (-7))) = Ok true /\
  p_cmp (denote defaults) int32 Lt (RR (mkRaw 1 (-2)) (mkRaw 0 (-7))) = Ok true /\
  p_cmp (denote defaults) int32 Lt (RR (mkRaw 1 (-2)) (mkRaw (-3) 6)) = Ok false /\
  p_cmp (denote defaults) int32 Lt (RR (mkRaw (-3) 6) (mkRaw 1 (-2))) = Ok false.
Proof. repeat split; vm_compute; reflexivity. Qed.

(** C16: for all operands, signs, representations and policies, undefined
    operands and undefined behaviour included. *)
Theorem C16_greater_is_swapped_less : forall o t a,
  agree (p_cmp (denote o) t Gt a) (p_cmp (denote o) t Lt (swap a)).
Proof. exact c16_greater_is_swapped_less. Qed.
Print Assumptions C16_greater_is_swapped_less.

Theorem C16_greater_equal_is_swapped_less_equal : forall o t a,
  agree (p_cmp (denote o) t Ge a) (p_cmp (denote o) t Le (swap a)).
Proof. exact c16_greater_equal_is_swapped_less_equal. Qed.
Print Assumptions C16_greater_equal_is_swapped_less_equal.

Theorem C16_less_equal_is_less_or_equal : forall o t a,
  p_cmp (denote o) t Le a =
  (do x <- p_cmp (denote o) t Lt a; do y <- p_cmp (denote o) t Eq a; Ok (x || y)).
Proof. exact c16_less_equal_is_less_or_equal. Qed.
Print Assumptions C16_less_equal_is_less_or_equal.

Theorem C16_equal_symmetric : forall o t a,
  agree (p_cmp (denote o) t Eq a) (p_cmp (denote o) t Eq (swap a)).
Proof. exact c16_equal_symmetric. Qed.
Print Assumptions C16_equal_symmetric.

Theorem C16_trichotomy : forall o t a l e g,
  wf_rep t -> wf_args t a -> left_value a <> None -> right_value a <> None ->
  p_cmp (denote o) t Lt a = Ok l -> p_cmp (denote o) t Eq a = Ok e ->
  p_cmp (denote o) t Gt a = Ok g -> exactly_one l e g.
Proof. exact c16_trichotomy. Qed.
Print Assumptions C16_trichotomy.

Example C16_nonvacuous :
  swap (RI (mkRaw 1 (-2)) 0) = IR 0 (mkRaw 1 (-2)) /\
  p_cmp (denote Fast) int32 Gt (RI (mkRaw 1 (-2)) 0) = Ok true /\
  p_cmp (denote Fast) int32 Lt (IR 0 (mkRaw 1 (-2))) = Ok true /\
  p_cmp (denote Fast) int32 Le (RI (mkRaw 4 2) 2) = Ok true /\
  p_cmp (denote Fast) int32 Lt (RI (mkRaw 4 2) 2) = Ok false.
Proof. repeat split; vm_compute; reflexivity. Qed.

(** C17: signed and unsigned representations. *)
Theorem C17_undefined_unordered : forall o t op a b,
  wf_rep t -> wf_args t a -> left_value a = None \/ right_value a = None ->
  p_cmp (denote o) t op a = Ok b ->
  b = match op with Ne => true | _ => false end.
Proof. exact c17_undefined_unordered. Qed.
Print Assumptions C17_undefined_unordered.

(** C17: no undefined behaviour inside the bound. *)
Theorem C17_undefined_total : forall o t op a B,
  wf_rep t -> wf_args t a -> args_bounded B a -> B <= rmax t -> B * B <= rmax t ->
  left_value a = None \/ right_value a = None ->
  p_cmp (denote o) t op a = Ok (match op with Ne => true | _ => false end).
Proof. exact c17_undefined_total. Qed.
Print Assumptions C17_undefined_total.

Example C17_nonvacuous :
  p_cmp (denote defaults) int32 Eq (RR (mkRaw 0 0) (mkRaw 0 0)) = Ok false /\
  p_cmp (denote defaults) int32 Ne (RR (mkRaw 3 0) (mkRaw 1 2)) = Ok true /\
  p_cmp (denote Fast) uint32 Le (RI (mkRaw 3 0) 3) = Ok false.
Proof. repeat split; vm_compute; reflexivity. Qed.
