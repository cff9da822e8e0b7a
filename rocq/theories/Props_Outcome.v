(** Property theorems: the outcome of every operation of every policy.

    Each is closed by the lemma of the same name in Outcome_claims.v. *)

From Coq Require Import ZArith Bool Lia List.
From Verif Require Import Machine Raw Ops Spec Fraction Stack_spec Outcome_spec.
From Verif Require Import Machine_proofs Stack_proofs Outcome_proofs.
Import ListNotations.
Open Scope Z_scope.
From Verif Require Import Outcome_claims.

(** C104: what an arithmetic operator returns, and whether it is defined at all, for
    every stack of policies, every representation, signed or not, and all operands,
    unreduced, negative, undefined or extreme: the operands are reduced as the input
    layers say, the operation is carried out on the integers, each intermediate result
    overflowing or wrapping as the type does, and the result is reduced as the output
    layers say. *)
Theorem C104_arith : forall o t op a v, wf_rep t -> wf_args t a ->
  p_arith (denote o) t op a = Ok v <->
  reducible_args t (effect (input_modes o)) a /\
  exists x, returns t (on_lcm o) op (lowest_args (effect (input_modes o)) a) x /\
    reducible t (effect (output_modes o)) x /\ v = lowest (effect (output_modes o)) x.
Proof. exact c104_arith. Qed.
Print Assumptions C104_arith.

Example c104_arith_nonvacuous :
  (* reduced inputs on the product of denominators, wrapping *)
  p_arith (denote (ReducedInput Fast ignore_signs_mode)) uint32 Plus (RR (mkRaw 2 6) (mkRaw 4 4294967292)) = Ok (mkRaw 1073741826 3221225469) /\
  returns uint32 false Plus (RR (mkRaw 1 3) (mkRaw 1 1073741823)) (mkRaw 1073741826 3221225469) /\
  lowest Keeping (mkRaw 4 4294967292) = mkRaw 1 1073741823 /\ reducible uint32 Keeping (mkRaw 4 4294967292) /\
  (* an undefined operand under fast *)
  p_arith (denote Fast) int32 Plus (RR (mkRaw 2 0) (mkRaw (-1) 3)) = Ok (mkRaw 6 0) /\
  returns int32 false Plus (RR (mkRaw 2 0) (mkRaw (-1) 3)) (mkRaw 6 0) /\
  (* and under safe *)
  p_arith (denote Safe) int32 Plus (RR (mkRaw 2 0) (mkRaw (-1) 3)) = UB DivByZero /\
  (* negative denominators under safe *)
  p_arith (denote Safe) int32 Modulus (RR (mkRaw 7 (-4)) (mkRaw 5 6)) = Ok (mkRaw (-1) 12) /\
  returns int32 true Modulus (RR (mkRaw 7 (-4)) (mkRaw 5 6)) (mkRaw (-1) 12) /\
  p_arith (denote (ReducedInput Safe normalize_signs_mode)) int32 Divides (RI (mkRaw 6 (-4)) 3) = Ok (mkRaw (-3) 6) /\
  lowest Normalising (mkRaw 6 (-4)) = mkRaw (-3) 2.
Proof.
  split; [vm_compute; reflexivity|]. split; [exists 1073741823, 3, 1073741826; vm_compute; auto|].
  split; [vm_compute; reflexivity|]. split; [right; right; vm_compute; split; discriminate|].
  split; [vm_compute; reflexivity|].
  split; [exists 6, 0, 6; vm_compute; intuition discriminate|]. split; [vm_compute; reflexivity|]. split; [vm_compute; reflexivity|].
  split; [exists (-21), 10; vm_compute; intuition discriminate|]. split; vm_compute; reflexivity.
Qed.

(** C104: the same for comparisons. *)
Theorem C104_cmp : forall o t op a v, wf_rep t -> wf_args t a ->
  p_cmp (denote o) t op a = Ok v <->
  reducible_args t (effect (input_modes o)) a /\ decides t (on_lcm o) op (lowest_args (effect (input_modes o)) a) v.
Proof. exact c104_cmp. Qed.
Print Assumptions C104_cmp.

Example c104_cmp_nonvacuous :
  (* fast multiplies also the parts of undefined fractions, safe does not *)
  p_cmp (denote Fast) int32 Ne (RR (mkRaw 2 0) (mkRaw 1 3)) = Ok true /\ decides int32 false Ne (RR (mkRaw 2 0) (mkRaw 1 3)) true /\
  p_cmp (denote Fast) int32 Ne (RR (mkRaw 2000000000 0) (mkRaw 1 3)) = UB Overflow /\
  p_cmp (denote Safe) int32 Ne (RR (mkRaw 2000000000 0) (mkRaw 1 3)) = Ok true /\
  decides int32 true Ne (RR (mkRaw 2000000000 0) (mkRaw 1 3)) true /\
  (* reversed below a negative denominator *)
  p_cmp (denote Safe) int32 Lt (RI (mkRaw 1 (-2)) 1) = Ok false /\ decides int32 true Lt (RI (mkRaw 1 (-2)) 1) false.
Proof.
  split; [vm_compute; reflexivity|]. split; [exists 6, 0; vm_compute; intuition discriminate|].
  split; [vm_compute; reflexivity|]. split; [vm_compute; reflexivity|]. split; [vm_compute; reflexivity|].
  split; [vm_compute; reflexivity|]. exists 1, (-2). vm_compute. intuition discriminate.
Qed.

(** C104: and for the unary minus, whose operand is normalised by any input layer. *)
Theorem C104_negate : forall o t v r, wf_rep t -> wf_raw t v ->
  p_negate (denote o) t v = Ok r <->
  exists i x n, i = match effect (input_modes o) with Absent => Absent | _ => Normalising end /\
    reducible t i v /\ x = lowest i v /\ holds t (- num x) n /\
    reducible t (effect (output_modes o)) (mkRaw n (den x)) /\ r = lowest (effect (output_modes o)) (mkRaw n (den x)).
Proof. exact c104_negate. Qed.
Print Assumptions C104_negate.

(** C104: reduce itself. *)
Theorem C104_reduce : forall t v r, wf_rep t -> wf_raw t v ->
  (reduce t v ignore_signs_mode = Ok r <-> reducible t Keeping v /\ r = lowest Keeping v) /\
  (reduce t v normalize_signs_mode = Ok r <-> reducible t Normalising v /\ r = lowest Normalising v).
Proof. exact c104_reduce. Qed.
Print Assumptions C104_reduce.

Example c104_negate_nonvacuous :
  p_negate (denote (ReducedInput Fast ignore_signs_mode)) int32 (mkRaw 6 (-4)) = Ok (mkRaw 3 2) /\
  p_negate (denote Fast) uint32 (mkRaw 6 4) = Ok (mkRaw 4294967290 4) /\ holds uint32 (-6) 4294967290 /\
  reduce int32 (mkRaw 6 (-4)) ignore_signs_mode = Ok (mkRaw 3 (-2)) /\ lowest Keeping (mkRaw 6 (-4)) = mkRaw 3 (-2) /\
  reduce int32 (mkRaw 7 0) normalize_signs_mode = Ok (mkRaw 0 0) /\ lowest Normalising (mkRaw 7 0) = mkRaw 0 0.
Proof. repeat split; vm_compute; reflexivity. Qed.

(** C104: with an integer on one side the two bottom policies do the same, undefined
    behaviour included; and so they do for * and / of two fractions. *)
Theorem C104_integers : forall t op cop a,
  (two_fractions a = false -> p_arith (denote Safe) t op a = p_arith (denote Fast) t op a) /\
  (two_fractions a = false -> p_cmp (denote Safe) t cop a = p_cmp (denote Fast) t cop a) /\
  (op = Multiplies \/ op = Divides -> p_arith (denote Safe) t op a = p_arith (denote Fast) t op a).
Proof. exact c104_integers. Qed.
Print Assumptions C104_integers.

(** C104: and without layers an integer acts as the fraction with that numerator and
    denominator one does under fast. *)
Theorem C104_integer_as_fraction : forall t op l z v, wf_rep t -> wf_raw t l -> in_rep t z = true ->
  (p_arith (denote Fast) t op (RI l z) = Ok v <-> p_arith (denote Fast) t op (RR l (mkRaw z 1)) = Ok v) /\
  (p_arith (denote Fast) t op (IR z l) = Ok v <-> p_arith (denote Fast) t op (RR (mkRaw z 1) l) = Ok v).
Proof. exact c104_integer_as_fraction. Qed.
Print Assumptions C104_integer_as_fraction.

Example c104_integers_nonvacuous :
  two_fractions (RI (mkRaw 7 (-4)) 3) = false /\
  p_arith (denote Safe) int32 Modulus (RI (mkRaw 7 (-4)) 1) = Ok (mkRaw 3 (-4)) /\
  p_arith (denote Fast) int32 Modulus (RI (mkRaw 7 (-4)) 1) = Ok (mkRaw 3 (-4)) /\
  p_arith (denote Fast) int32 Modulus (RR (mkRaw 7 (-4)) (mkRaw 1 1)) = Ok (mkRaw 3 (-4)).
Proof. repeat split; vm_compute; reflexivity. Qed.
