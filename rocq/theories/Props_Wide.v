(** Property theorems: a wider representation never changes a result.

    Each is closed by the lemma of the same name in Wide_claims.v. *)

From Coq Require Import String ZArith QArith List Bool Lia.
From Verif Require Import Machine Raw Ops Spec Fraction Fmath Mixed Mixed_spec MixDef_spec Chrono Chrono_spec Chrono2 Parse Parse_spec Program Wide_spec.
From Verif Require Import Machine_proofs Wide_proofs.
Import ListNotations.
Open Scope Z_scope.
From Verif Require Import Wide_claims.

(** C92: whatever an operator computes without undefined behaviour, it computes in every
    wider signed type, too, to the same numerator and denominator; for every policy. *)
Theorem C92_arith : forall o t u op a r, wider t u ->
  p_arith (denote o) t op a = Ok r -> p_arith (denote o) u op a = Ok r.
Proof. exact c92_arith. Qed.
Print Assumptions C92_arith.

Theorem C92_comparison : forall o t u op a b, wider t u ->
  p_cmp (denote o) t op a = Ok b -> p_cmp (denote o) u op a = Ok b.
Proof. exact c92_comparison. Qed.
Print Assumptions C92_comparison.

Theorem C92_unary : forall o t u v, wider t u ->
  (forall r, f_negate (denote o) t v = Ok r -> f_negate (denote o) u v = Ok r) /\
  (forall r, f_abs (denote o) t v = Ok r -> f_abs (denote o) u v = Ok r) /\
  (forall m r, reduce t v m = Ok r -> reduce u v m = Ok r).
Proof. exact c92_unary. Qed.
Print Assumptions C92_unary.

(** C92: the queries that calculate. *)
Theorem C92_queries : forall t u v b, wider t u ->
  (is_integer t v = Ok b -> is_integer u v = Ok b) /\
  (is_unit_fraction t v = Ok b -> is_unit_fraction u v = Ok b) /\
  (is_reduced t v = Ok b -> is_reduced u v = Ok b) /\
  (is_proper t v = Ok b -> is_proper u v = Ok b) /\
  (is_improper t v = Ok b -> is_improper u v = Ok b).
Proof. exact c92_queries. Qed.
Print Assumptions C92_queries.

(** C92: trunc, ceil, floor, round, redenominate and pow. *)
Theorem C92_to_whole : forall o t u v m k, wider t u ->
  f_to_whole (denote o) t v m = Ok k -> f_to_whole (denote o) u v m = Ok k.
Proof. exact c92_to_whole. Qed.
Print Assumptions C92_to_whole.

Theorem C92_redenominate : forall o t u v d m r, wider t u ->
  f_redenominate (denote o) t v d m = Ok r -> f_redenominate (denote o) u v d m = Ok r.
Proof. exact c92_redenominate. Qed.
Print Assumptions C92_redenominate.

Theorem C92_pow : forall t u base exponent r, wider t u -> in_rep int32 exponent = true ->
  f_pow t base exponent = Ok r -> f_pow u base exponent = Ok r.
Proof. exact c92_pow. Qed.
Print Assumptions C92_pow.

(** C92: not so for pow2, which wraps at the sign bit. *)
Theorem C92_pow2_refuted : exists t u e x y, wider t u /\ in_rep int32 e = true /\
  f_pow2 t e = Ok x /\ f_pow2 u e = Ok y /\ x <> y.
Proof. exact c92_pow2_refuted. Qed.
Print Assumptions C92_pow2_refuted.

(** C92: nor for unsigned types, which wrap below zero. *)
Theorem C92_unsigned_refuted : exists t u a x y, rsigned t = false /\ rsigned u = false /\ rbits t <= rbits u /\
  p_arith (denote defaults) t Minus a = Ok x /\ p_arith (denote defaults) u Minus a = Ok y /\ x <> y.
Proof. exact c92_unsigned_refuted. Qed.
Print Assumptions C92_unsigned_refuted.

(** C92: every expression over one type, every literal, every expression over mixed
    numbers. *)
Theorem C92_expression : forall o t u e v, wider t u -> eval (denote o) t e = Ok v -> eval (denote o) u e = Ok v.
Proof. exact c92_expression. Qed.
Print Assumptions C92_expression.

Theorem C92_literal : forall o t u s r, wider t u -> Z.of_nat (length s) <= 2147483647 ->
  string_to_fraction (denote o) t s = Ok r -> string_to_fraction (denote o) u s = Ok r.
Proof. exact c92_literal. Qed.
Print Assumptions C92_literal.

Theorem C92_mixed : forall o t u e m, wider t u -> typed t e ->
  meval (denote o) e = Ok m -> meval (denote o) (retype u e) = Ok m.
Proof. exact c92_mixed. Qed.
Print Assumptions C92_mixed.

Theorem C92_mixed_to_fraction : forall o t u m r, wider t u -> wf_mixed t t m ->
  mixed_as_fraction (denote o) t t m = Ok r -> mixed_as_fraction (denote o) u u m = Ok r.
Proof. exact c92_mixed_to_fraction. Qed.
Print Assumptions C92_mixed_to_fraction.

Example c92_nonvacuous :
  wider int32 int64 /\
  p_arith (denote Safe) int32 Plus (RR (mkRaw 3 40000) (mkRaw 7 60000)) = Ok (mkRaw 23 120000) /\
  p_arith (denote Fast) int32 Plus (RR (mkRaw 3 40000) (mkRaw 7 60000)) = UB Overflow /\
  p_arith (denote Fast) int64 Plus (RR (mkRaw 3 40000) (mkRaw 7 60000)) = Ok (mkRaw 460000 2400000000) /\
  f_redenominate (denote defaults) int32 (mkRaw (-7) 3) 10 round_round = Ok (mkRaw (-23) 10) /\
  f_pow int32 (-3) (-19) = Ok (mkRaw 1 (-1162261467)) /\
  string_to_fraction (denote Safe) int32 (codes "12.25e2") = Ok (mkRaw 122500 100) /\
  typed int32 mixed_sum /\ meval (denote defaults) mixed_sum = Ok (mkMixed (-13) (mkRaw (-1) 12)) /\
  meval (denote defaults) (retype int64 mixed_sum) = Ok (mkMixed (-13) (mkRaw (-1) 12)).
Proof. split; [repeat split; vm_compute; congruence|]. repeat split; vm_compute; reflexivity. Qed.

(** C92: durations of representations of at least 64 bits: conversion, sum, difference,
    quotient and remainder, comparison, floor and ceil. *)
Theorem C92_duration_cast : forall o t u from to c r, wider t u -> 64 <= rbits t -> wf_count t c ->
  duration_cast (denote o) t from to c = Some (Ok r) -> duration_cast (denote o) u from to c = Some (Ok r).
Proof. exact c92_duration_cast. Qed.
Print Assumptions C92_duration_cast.

Theorem C92_duration_arith : forall o t u op pl pr l r pc v, wider t u -> 64 <= rbits t -> wf_count t l -> wf_count t r ->
  duration_arith (denote o) t op pl pr l r = Some (pc, Ok v) -> duration_arith (denote o) u op pl pr l r = Some (pc, Ok v).
Proof. exact c92_duration_arith. Qed.
Print Assumptions C92_duration_arith.

Theorem C92_duration_comparison : forall o t u pl pr l r v, wider t u -> 64 <= rbits t -> wf_count t l -> wf_count t r ->
  (duration_eq (denote o) t pl pr l r = Some (Ok v) -> duration_eq (denote o) u pl pr l r = Some (Ok v)) /\
  (duration_lt (denote o) t pl pr l r = Some (Ok v) -> duration_lt (denote o) u pl pr l r = Some (Ok v)) /\
  (duration_le (denote o) t pl pr l r = Some (Ok v) -> duration_le (denote o) u pl pr l r = Some (Ok v)).
Proof. exact c92_duration_comparison. Qed.
Print Assumptions C92_duration_comparison.

Theorem C92_duration_rounding : forall o t u from to c v, wider t u -> 64 <= rbits t -> wf_count t c ->
  (duration_floor (denote o) t from to c = Some (Ok v) -> duration_floor (denote o) u from to c = Some (Ok v)) /\
  (duration_ceil (denote o) t from to c = Some (Ok v) -> duration_ceil (denote o) u from to c = Some (Ok v)).
Proof. exact c92_duration_rounding. Qed.
Print Assumptions C92_duration_rounding.

Example c92_duration_case :
  let u := mkRep true 128 in
  wider int64 u /\ wf_count int64 (IntCount int32 7) /\
  duration_arith (denote defaults) int64 Plus (mkPeriod 1 1000) (mkPeriod 60 1) (IntCount int32 7) (FracCount (mkRaw 1 3)) =
    Some (mkPeriod 1 1000, Ok (mkRaw 20007 1)) /\
  duration_lt (denote Safe) int64 (mkPeriod 1 1000) (mkPeriod 60 1) (IntCount int32 7) (FracCount (mkRaw 1 3)) = Some (Ok true).
Proof. cbn zeta. split; [repeat split; vm_compute; congruence|]. repeat split; vm_compute; reflexivity. Qed.

(** C92: programs.  Widening the types of any variables of a program, without changing
    its text, leaves the final values of all variables unchanged, for every policy,
    whatever its loops do, if with the original types no operation is undefined and no
    assignment narrows. *)
Theorem C92_program : forall o ty ty' fuel s c s', wider_all ty ty' -> typed_store ty s -> static_s ty c ->
  exec (denote o) ty fuel s c = Some (Ok s') -> exec (denote o) ty' fuel s c = Some (Ok s').
Proof. exact c92_program. Qed.
Print Assumptions C92_program.

(** C92: with narrowing assignments this fails. *)
Theorem C92_narrowing_refuted : exists ty ty' s c x y, wider_all ty ty' /\ typed_store ty s /\
  exec (denote defaults) ty 2 s c = Some (Ok x) /\ exec (denote defaults) ty' 2 s c = Some (Ok y) /\ x 0%nat <> y 0%nat.
Proof. exact c92_narrowing_refuted. Qed.
Print Assumptions C92_narrowing_refuted.

Example c92_program_case :
  let s := fun _ => mkRaw 0 1 in
  wider_all small_types large_types /\ typed_store small_types s /\ static_s small_types harmonic /\
  match exec (denote Safe) small_types 12 s harmonic, exec (denote Safe) large_types 12 s harmonic with
  | Some (Ok x), Some (Ok y) => x 1%nat = y 1%nat /\ x 1%nat = mkRaw 147 60
  | _, _ => False
  end.
Proof.
  cbn zeta. split; [intros [|x]; repeat split; vm_compute; congruence|].
  split; [intros x; repeat split; vm_compute; congruence|].
  split; [repeat split; vm_compute; congruence|]. vm_compute. split; reflexivity.
Qed.
