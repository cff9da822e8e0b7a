(** Property theorems: arithmetic of every policy.

    Each is closed by the lemma of the same name in Arith_claims.v. *)

From Coq Require Import ZArith QArith Qabs Bool Lia.
From Verif Require Import Machine Raw Ops Spec.
From Verif Require Import Machine_proofs Value_proofs Qtrunc_proofs Ops_proofs Total_proofs Cmp_proofs Order_proofs Algebra_proofs Laws_proofs Mono_proofs.
Open Scope Z_scope.
From Verif Require Import Arith_claims.

(** C01. [a] is any pair of operands: fraction/fraction, fraction/integer or
    integer/fraction; [o] is any policy built from safe, fast, reduced_input
    and reduced_output. *)
Theorem C01_addition_exact : forall o t a r x y,
  wf_rep t -> rsigned t = true -> wf_args t a ->
  left_value a = Some x -> right_value a = Some y ->
  p_arith (denote o) t Plus a = Ok r ->
  exists q, value r = Some q /\ (q == x + y)%Q.
Proof. exact c01_addition_exact. Qed.
Print Assumptions C01_addition_exact.

Example C01_nonvacuous :
  wf_rep int32 /\ wf_args int32 (RR (mkRaw 1 6) (mkRaw (-3) 4)) /\
  p_arith (denote defaults) int32 Plus (RR (mkRaw 1 6) (mkRaw (-3) 4)) = Ok (mkRaw (-7) 12) /\
  p_arith (denote fast_reduced_i) int32 Plus (IR 2 (mkRaw 3 (-4))) = Ok (mkRaw (-5) (-4)).
Proof. repeat split; try (vm_compute; congruence). Qed.

(** C02 *)
Theorem C02_subtraction_exact : forall o t a r x y,
  wf_rep t -> rsigned t = true -> wf_args t a ->
  left_value a = Some x -> right_value a = Some y ->
  p_arith (denote o) t Minus a = Ok r ->
  exists q, value r = Some q /\ (q == x - y)%Q.
Proof. exact c02_subtraction_exact. Qed.
Print Assumptions C02_subtraction_exact.

Example C02_nonvacuous :
  p_arith (denote Safe) int64 Minus (RR (mkRaw 1 6) (mkRaw 3 4)) = Ok (mkRaw (-7) 12) /\
  p_arith (denote defaults) int32 Minus (RI (mkRaw 6 4) 2) = Ok (mkRaw (-1) 2).
Proof. split; vm_compute; reflexivity. Qed.

(** C03 *)
Theorem C03_multiplication_exact : forall o t a r x y,
  wf_rep t -> rsigned t = true -> wf_args t a ->
  left_value a = Some x -> right_value a = Some y ->
  p_arith (denote o) t Multiplies a = Ok r ->
  exists q, value r = Some q /\ (q == x * y)%Q.
Proof. exact c03_multiplication_exact. Qed.
Print Assumptions C03_multiplication_exact.

Example C03_nonvacuous :
  p_arith (denote Fast) int32 Multiplies (RR (mkRaw 2 6) (mkRaw 3 (-4))) = Ok (mkRaw 6 (-24)) /\
  p_arith (denote defaults) int32 Multiplies (RR (mkRaw 2 6) (mkRaw 3 (-4))) = Ok (mkRaw (-1) 4).
Proof. split; vm_compute; reflexivity. Qed.

(** C04: the exact quotient, or an undefined fraction when the divisor is
    zero. *)
Theorem C04_division_exact : forall o t a r x y,
  wf_rep t -> rsigned t = true -> wf_args t a ->
  left_value a = Some x -> right_value a = Some y ->
  p_arith (denote o) t Divides a = Ok r ->
  (~ (y == 0)%Q -> exists q, value r = Some q /\ (q == x / y)%Q) /\
  ((y == 0)%Q -> value r = None).
Proof. exact c04_division_exact. Qed.
Print Assumptions C04_division_exact.

(** C04: dividing by zero is never undefined behaviour under the default
    policy (parts other than the minimum of the type): the result is 0/0. *)
Theorem C04_division_by_zero_total : forall t l r,
  wf_rep t -> wf_raw t l -> wf_raw t r ->
  raw_bounded (rmax t) l -> raw_bounded (rmax t) r ->
  value l <> None -> value_is (fun q => q == 0)%Q r ->
  p_arith (denote defaults) t Divides (RR l r) = Ok (mkRaw 0 0).
Proof. exact c04_division_by_zero_total. Qed.
Print Assumptions C04_division_by_zero_total.

Example C04_nonvacuous :
  p_arith (denote defaults) int32 Divides (RR (mkRaw 1 2) (mkRaw 0 5)) = Ok (mkRaw 0 0) /\
  p_arith (denote Fast) int32 Divides (RI (mkRaw 1 2) 0) = Ok (mkRaw 1 0) /\
  p_arith (denote defaults) int32 Divides (RR (mkRaw 1 2) (mkRaw (-3) 5)) = Ok (mkRaw (-5) 6).
Proof. repeat split; vm_compute; reflexivity. Qed.

(** C05: the truncated remainder; a zero divisor is undefined behaviour. *)
Theorem C05_modulus_exact : forall o t a r x y,
  wf_rep t -> rsigned t = true -> wf_args t a ->
  left_value a = Some x -> right_value a = Some y ->
  p_arith (denote o) t Modulus a = Ok r ->
  ~ (y == 0)%Q /\
  exists q k, value r = Some q /\ (q == x - y * inject_Z k)%Q /\ (Qabs q < Qabs y)%Q /\
    (0 <= x -> 0 <= q)%Q /\ (x <= 0 -> q <= 0)%Q.
Proof. exact c05_modulus_exact. Qed.
Print Assumptions C05_modulus_exact.

Example C05_nonvacuous :
  p_arith (denote defaults) int32 Modulus (RR (mkRaw (-7) 2) (mkRaw 4 3)) = Ok (mkRaw (-5) 6) /\
  p_arith (denote Safe) int32 Modulus (IR 7 (mkRaw 3 2)) = Ok (mkRaw 2 2) /\
  p_arith (denote defaults) int32 Modulus (RR (mkRaw 7 2) (mkRaw 0 3)) = UB DivByZero.
Proof. repeat split; vm_compute; reflexivity. Qed.

(** C06: unary minus (unary plus is the identity by construction,
    fraction.hpp:575-579). *)
Theorem C06_negation_exact : forall o t v r,
  wf_rep t -> rsigned t = true -> wf_raw t v ->
  p_negate (denote o) t v = Ok r ->
  (forall x, value v = Some x -> exists q, value r = Some q /\ (q == - x)%Q) /\
  (value v = None -> value r = None).
Proof. exact c06_negation_exact. Qed.
Print Assumptions C06_negation_exact.

Example C06_nonvacuous :
  p_negate (denote defaults) int32 (mkRaw 4 (-6)) = Ok (mkRaw 2 3) /\
  p_negate (denote Safe) int32 (mkRaw (-2147483648) 3) = UB Overflow.
Proof. split; vm_compute; reflexivity. Qed.

(** C07: no undefined behaviour and the exact value inside the square-root
    bound, for signed and unsigned representations. *)
Theorem C07_total_in_bound : forall o t op a B x y,
  wf_rep t -> wf_args t a ->
  left_value a = Some x -> right_value a = Some y ->
  args_bounded B a -> 2 * B * B <= rmax t ->
  (op = Modulus -> ~ (y == 0)%Q) ->
  (op = Minus -> rsigned t = false -> (y <= x)%Q) ->
  exists r, p_arith (denote o) t op a = Ok r /\ wf_raw t r
    /\ raw_bounded (2 * B * B) r /\ same_value (value r) (exact op x y).
Proof. exact c07_total_in_bound. Qed.
Print Assumptions C07_total_in_bound.

Theorem C07_negate_total : forall o t v,
  wf_rep t -> rsigned t = true -> wf_raw t v -> raw_bounded (rmax t) v ->
  exists r, p_negate (denote o) t v = Ok r /\ wf_raw t r /\ raw_bounded (rmax t) r.
Proof. exact c07_negate_total. Qed.
Print Assumptions C07_negate_total.

Example C07_nonvacuous :
  args_bounded 32767 (RR (mkRaw 32767 (-32766)) (mkRaw 32765 32767)) /\
  2 * 32767 * 32767 <= rmax int32 /\
  p_arith (denote defaults) int32 Plus (RR (mkRaw 32767 (-32766)) (mkRaw 32765 32767))
    = Ok (mkRaw (-98299) 1073643522) /\
  p_arith (denote defaults) uint32 Minus (RR (mkRaw 3 4) (mkRaw 1 6)) = Ok (mkRaw 7 12).
Proof. repeat split; vm_compute; congruence. Qed.

(** C08 *)
Theorem C08_policies_agree : forall o1 o2 t op a r1 r2,
  wf_rep t -> rsigned t = true -> wf_args t a ->
  left_value a <> None -> right_value a <> None ->
  p_arith (denote o1) t op a = Ok r1 -> p_arith (denote o2) t op a = Ok r2 ->
  same_value (value r1) (value r2).
Proof. exact c08_policies_agree. Qed.
Print Assumptions C08_policies_agree.

Example C08_nonvacuous :
  p_arith (denote Fast) int32 Plus (RR (mkRaw 1 6) (mkRaw 1 (-6))) = Ok (mkRaw 0 (-36)) /\
  p_arith (denote Safe) int32 Plus (RR (mkRaw 1 6) (mkRaw 1 (-6))) = Ok (mkRaw 0 6) /\
  p_arith (denote defaults) int32 Plus (RR (mkRaw 1 6) (mkRaw 1 (-6))) = Ok (mkRaw 0 1).
Proof. repeat split; vm_compute; reflexivity. Qed.

(** C09: also for undefined operands and unsigned representations. *)
Theorem C09_canonical_results : forall o t op a r,
  wf_rep t -> wf_args t a -> output_canonical o = true ->
  p_arith (denote o) t op a = Ok r -> canonical r.
Proof. exact c09_canonical_results. Qed.
Print Assumptions C09_canonical_results.

Theorem C09_canonical_negation : forall o t v r,
  wf_rep t -> wf_raw t v -> output_canonical o = true ->
  p_negate (denote o) t v = Ok r -> canonical r.
Proof. exact c09_canonical_negation. Qed.
Print Assumptions C09_canonical_negation.

Example C09_nonvacuous :
  output_canonical defaults = true /\ output_canonical fast_reduced_o = true /\
  output_canonical (ReducedInput (ReducedOutput fast_reduced_o ignore_signs_mode) normalize_signs_mode) = true /\
  output_canonical Safe = false /\
  p_arith (denote defaults) int32 Divides (RR (mkRaw 5 10) (mkRaw (-6) 4)) = Ok (mkRaw (-1) 3).
Proof. repeat split; vm_compute; reflexivity. Qed.

(** C10: the same result, or undefined behaviour in both orders. *)
Theorem C10_plus_commutes : forall o t a,
  agree (p_arith (denote o) t Plus a) (p_arith (denote o) t Plus (swap a)).
Proof. exact c10_plus_commutes. Qed.
Print Assumptions C10_plus_commutes.

Theorem C10_multiplies_commutes : forall o t a,
  agree (p_arith (denote o) t Multiplies a) (p_arith (denote o) t Multiplies (swap a)).
Proof. exact c10_multiplies_commutes. Qed.
Print Assumptions C10_multiplies_commutes.

Example C10_nonvacuous :
  p_arith (denote fast_reduced_i) int32 Plus (RR (mkRaw 2 12) (mkRaw 3 (-4))) = Ok (mkRaw 14 (-24)) /\
  p_arith (denote fast_reduced_i) int32 Plus (RR (mkRaw 3 (-4)) (mkRaw 2 12)) = Ok (mkRaw 14 (-24)).
Proof. split; vm_compute; reflexivity. Qed.

(** C11: for every policy whose results are canonical, in particular the
    default policy.  Undefined operands are included where no definedness is
    assumed. *)
Theorem C11_plus_assoc : forall o t a b c ab bc x y,
  wf_rep t -> rsigned t = true -> output_canonical o = true ->
  wf_raw t a -> wf_raw t b -> wf_raw t c ->
  p_arith (denote o) t Plus (RR a b) = Ok ab -> p_arith (denote o) t Plus (RR ab c) = Ok x ->
  p_arith (denote o) t Plus (RR b c) = Ok bc -> p_arith (denote o) t Plus (RR a bc) = Ok y ->
  x = y.
Proof. exact c11_plus_assoc. Qed.
Print Assumptions C11_plus_assoc.

Theorem C11_multiplies_assoc : forall o t a b c ab bc x y,
  wf_rep t -> rsigned t = true -> output_canonical o = true ->
  wf_raw t a -> wf_raw t b -> wf_raw t c ->
  p_arith (denote o) t Multiplies (RR a b) = Ok ab -> p_arith (denote o) t Multiplies (RR ab c) = Ok x ->
  p_arith (denote o) t Multiplies (RR b c) = Ok bc -> p_arith (denote o) t Multiplies (RR a bc) = Ok y ->
  x = y.
Proof. exact c11_multiplies_assoc. Qed.
Print Assumptions C11_multiplies_assoc.

Theorem C11_distributes : forall o t a b c bc x ab ac y,
  wf_rep t -> rsigned t = true -> output_canonical o = true ->
  wf_raw t a -> wf_raw t b -> wf_raw t c ->
  p_arith (denote o) t Plus (RR b c) = Ok bc -> p_arith (denote o) t Multiplies (RR a bc) = Ok x ->
  p_arith (denote o) t Multiplies (RR a b) = Ok ab -> p_arith (denote o) t Multiplies (RR a c) = Ok ac ->
  p_arith (denote o) t Plus (RR ab ac) = Ok y ->
  x = y.
Proof. exact c11_distributes. Qed.
Print Assumptions C11_distributes.

Theorem C11_sub_add : forall o t a b d x y,
  wf_rep t -> rsigned t = true -> output_canonical o = true ->
  wf_raw t a -> wf_raw t b -> value b <> None ->
  p_arith (denote o) t Minus (RR a b) = Ok d -> p_arith (denote o) t Plus (RR d b) = Ok x ->
  reduce t a normalize_signs_mode = Ok y ->
  x = y.
Proof. exact c11_sub_add. Qed.
Print Assumptions C11_sub_add.

Theorem C11_div_mul : forall o t a b d x y,
  wf_rep t -> rsigned t = true -> output_canonical o = true ->
  wf_raw t a -> wf_raw t b -> value b <> None -> ~ same_value (value b) (Some 0%Q) ->
  p_arith (denote o) t Divides (RR a b) = Ok d -> p_arith (denote o) t Multiplies (RR d b) = Ok x ->
  reduce t a normalize_signs_mode = Ok y ->
  x = y.
Proof. exact c11_div_mul. Qed.
Print Assumptions C11_div_mul.

Theorem C11_add_negation : forall o t a n x,
  wf_rep t -> rsigned t = true -> output_canonical o = true ->
  wf_raw t a -> value a <> None ->
  p_negate (denote o) t a = Ok n -> p_arith (denote o) t Plus (RR a n) = Ok x ->
  x = mkRaw 0 1.
Proof. exact c11_add_negation. Qed.
Print Assumptions C11_add_negation.

Example C11_nonvacuous :
  let p := p_arith (denote defaults) int32 in
  let a := mkRaw 2 6 in let b := mkRaw 3 (-4) in let c := mkRaw 5 10 in
  p Plus (RR a b) = Ok (mkRaw (-5) 12) /\ p Plus (RR (mkRaw (-5) 12) c) = Ok (mkRaw 1 12) /\
  p Plus (RR b c) = Ok (mkRaw (-1) 4) /\ p Plus (RR a (mkRaw (-1) 4)) = Ok (mkRaw 1 12) /\
  p Minus (RR a b) = Ok (mkRaw 13 12) /\ p Plus (RR (mkRaw 13 12) b) = Ok (mkRaw 1 3).
Proof. repeat split; vm_compute; reflexivity. Qed.

(** C18: the statement "an operation with an undefined operand yields an
    undefined fraction, without undefined behaviour" is false of the code in
    both halves.

    What holds: when an operation with an undefined operand finishes, the
    result is undefined, except for an undefined divisor under a policy that
    does not reduce its inputs. *)
Theorem C18_undefined_propagates_partial : forall o t op a r,
  wf_rep t -> wf_args t a -> left_value a = None \/ right_value a = None ->
  op <> Divides \/ reduces_inputs o = true \/ right_value a <> None ->
  p_arith (denote o) t op a = Ok r -> value r = None.
Proof. exact c18_undefined_propagates_partial. Qed.
Print Assumptions C18_undefined_propagates_partial.

(** C18: * and / under the default policy do return 0/0. *)
Theorem C18_defaults_mul_div : forall t op l r,
  wf_rep t -> wf_raw t l -> wf_raw t r ->
  raw_bounded (rmax t) l -> raw_bounded (rmax t) r ->
  op = Multiplies \/ op = Divides -> value l = None \/ value r = None ->
  p_arith (denote defaults) t op (RR l r) = Ok (mkRaw 0 0).
Proof. exact c18_defaults_mul_div. Qed.
Print Assumptions C18_defaults_mul_div.

(** C18: under every policy built on safe, the default one included, +, - and
    % of two fractions one of which is undefined are undefined behaviour,
    whatever the other operand. *)
Theorem C18_safe_undefined_traps : forall o t op l r,
  wf_rep t -> wf_raw t l -> wf_raw t r -> built_on_safe o = true ->
  op = Plus \/ op = Minus \/ op = Modulus -> value l = None \/ value r = None ->
  exists u, p_arith (denote o) t op (RR l r) = UB u.
Proof. exact c18_safe_undefined_traps. Qed.
Print Assumptions C18_safe_undefined_traps.

(** C18: witnesses against the statement: the default policy divides by zero
    on 1/2 + 1/0, and safe and fast return the defined 0/6 for 1/2 divided by
    the undefined 3/0. *)
Theorem C18_undefined_propagates_refuted :
  (exists l r, value r = None /\ p_arith (denote defaults) int32 Plus (RR l r) = UB DivByZero) /\
  (exists l r q, value r = None /\
     p_arith (denote Safe) int32 Divides (RR l r) = Ok q /\
     p_arith (denote Fast) int32 Divides (RR l r) = Ok q /\ value q <> None).
Proof. exact c18_undefined_propagates_refuted. Qed.
Print Assumptions C18_undefined_propagates_refuted.

Example C18_nonvacuous :
  p_arith (denote Fast) int32 Plus (RR (mkRaw 1 2) (mkRaw 3 0)) = Ok (mkRaw 6 0) /\
  p_arith (denote defaults) int32 Plus (RI (mkRaw 1 0) 5) = Ok (mkRaw 0 0) /\
  p_arith (denote fast_reduced_i) int32 Divides (RR (mkRaw 1 2) (mkRaw 3 0)) = Ok (mkRaw 0 0).
Proof. repeat split; vm_compute; reflexivity. Qed.

(** C56: for every policy, replacing fast by safe keeps success (arithmetic,
    positive denominators), and the result is the same up to a positive common
    factor by which fast's parts are larger. *)
Theorem C56_safe_dominates_fast : forall o t op a r,
  wf_rep t -> rsigned t = true -> wf_args t a -> positive_dens a ->
  p_arith (denote o) t op a = Ok r ->
  exists r', p_arith (denote (on_safe o)) t op a = Ok r' /\ scaled r' r.
Proof. exact c56_safe_dominates_fast. Qed.
Print Assumptions C56_safe_dominates_fast.

(** C56: safe succeeds where fast overflows. *)
Theorem C56_safe_strictly_better : exists l r s,
  p_arith fast int32 Plus (RR l r) = UB Overflow /\ p_arith safe int32 Plus (RR l r) = Ok s.
Proof. exact c56_safe_strictly_better. Qed.
Print Assumptions C56_safe_strictly_better.

(** C56: without positive denominators the claim is false, and for the
    comparisons it is false even with them: safe needs the least common
    multiple of the denominators, fast only the two cross products. *)
Theorem C56_dominates_refuted :
  (exists l r s, value l <> None /\ value r <> None /\
     p_arith fast int32 Plus (RR l r) = Ok s /\ p_arith safe int32 Plus (RR l r) = UB Overflow) /\
  (exists l r, 0 < den l /\ 0 < den r /\
     p_cmp fast int32 Lt (RR l r) = Ok false /\
     p_cmp safe int32 Lt (RR l r) = UB LibPrecond /\
     p_cmp (denote defaults) int32 Lt (RR l r) = UB LibPrecond).
Proof. exact c56_dominates_refuted. Qed.
Print Assumptions C56_dominates_refuted.

Example C56_nonvacuous :
  on_safe fast_reduced_io = safe_reduced_io /\
  positive_dens (RR (mkRaw 1 6) (mkRaw 1 4)) /\
  p_arith (denote Fast) int32 Plus (RR (mkRaw 1 6) (mkRaw 1 4)) = Ok (mkRaw 10 24) /\
  p_arith (denote Safe) int32 Plus (RR (mkRaw 1 6) (mkRaw 1 4)) = Ok (mkRaw 5 12).
Proof. repeat split; vm_compute; reflexivity. Qed.

(** C57: for every policy and either mode; the parts must not be the minimum of
    the type (std::gcd's precondition), and normalising signs needs positive
    denominators. *)
Theorem C57_reduced_input_no_new_overflow : forall o m t op a r,
  wf_rep t -> rsigned t = true -> wf_args t a ->
  left_value a <> None -> right_value a <> None -> args_bounded (rmax t) a ->
  m = ignore_signs_mode \/ positive_dens a ->
  p_arith (denote o) t op a = Ok r ->
  exists r', p_arith (denote (ReducedInput o m)) t op a = Ok r' /\ scaled r' r.
Proof. exact c57_reduced_input_no_new_overflow. Qed.
Print Assumptions C57_reduced_input_no_new_overflow.

Theorem C57_reduced_input_cmp : forall o m t op a v,
  wf_rep t -> rsigned t = true -> wf_args t a ->
  left_value a <> None -> right_value a <> None -> args_bounded (rmax t) a ->
  m = ignore_signs_mode \/ positive_dens a ->
  p_cmp (denote o) t op a = Ok v ->
  p_cmp (denote (ReducedInput o m)) t op a = Ok v.
Proof. exact c57_reduced_input_cmp. Qed.
Print Assumptions C57_reduced_input_cmp.

(** C57: with the minimum value among the parts reduction is undefined
    behaviour although the operation is not. *)
Theorem C57_minimum_refuted : exists l r s, value l <> None /\ value r <> None /\
  p_arith safe int32 Plus (RR l r) = Ok s /\
  p_arith (denote safe_reduced_i) int32 Plus (RR l r) = UB LibPrecond.
Proof. exact c57_minimum_refuted. Qed.
Print Assumptions C57_minimum_refuted.

Example C57_nonvacuous :
  p_arith (denote Fast) int32 Multiplies (RR (mkRaw 20000 40000) (mkRaw 30000 60000)) = UB Overflow /\
  p_arith (denote fast_reduced_i) int32 Multiplies (RR (mkRaw 20000 40000) (mkRaw 30000 60000)) = Ok (mkRaw 1 4) /\
  p_arith (denote Fast) int32 Multiplies (RR (mkRaw 20 40) (mkRaw 30 60)) = Ok (mkRaw 600 2400).
Proof. repeat split; vm_compute; reflexivity. Qed.
