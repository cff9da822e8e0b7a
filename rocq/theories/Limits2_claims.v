(** Proofs of the statements in Props_Limits2.v. *)

From Coq Require Import ZArith QArith Lia Lqa Psatz Bool.
From Verif Require Import Machine Raw Ops Spec Fraction Limits Limits2 Mixed_spec.
From Verif Require Import Machine_proofs Value_proofs Ops_proofs Algebra_proofs Fraction_proofs Literals_proofs Limits2_proofs.
Open Scope Z_scope.

Lemma c76_is_signed : forall t, wf_rep t ->
  (nl_is_signed t = true <-> exists v q, wf_raw t v /\ value v = Some q /\ (q < 0)%Q).
Proof. exact is_signed_iff. Qed.

Lemma c76_digits : forall t n, wf_rep t -> 0 <= n ->
  (n <= nl_digits t <->
   forall z, (if nl_is_signed t then Z.abs z < nl_radix ^ n else 0 <= z < nl_radix ^ n) ->
     exists v, wf_raw t v /\ same_value (value v) (Some (inject_Z z))).
Proof. exact digits_iff. Qed.

Lemma c76_digits10 : forall t z, wf_rep t ->
  (if nl_is_signed t then Z.abs z < 10 ^ nl_digits10 t else 0 <= z < 10 ^ nl_digits10 t) ->
  exists v, wf_raw t v /\ same_value (value v) (Some (inject_Z z)).
Proof. exact digits10_fit. Qed.

Lemma c76_is_bounded : forall t v q, signed_rep t -> wf_raw t v -> value v = Some q ->
  nl_is_bounded t = true /\ (- inject_Z (2 ^ nl_digits t) <= q <= inject_Z (2 ^ nl_digits t))%Q.
Proof. intros t v q A B C. split; [reflexivity|exact (bounded_values t v q A B C)]. Qed.

Lemma c76_quiet_NaN : forall o t v, signed_rep t -> wf_raw t v ->
  nl_has_quiet_NaN = true /\ value nl_quiet_NaN = None /\
  (forall b, p_cmp (denote o) t Eq (RR nl_quiet_NaN v) = Ok b -> b = false) /\
  (forall b, p_cmp (denote o) t Ne (RR nl_quiet_NaN v) = Ok b -> b = true) /\
  (forall op r, p_arith (denote o) t op (RR nl_quiet_NaN v) = Ok r -> op <> Divides \/ value v <> None -> value r = None).
Proof. intros o t v A B. split; [reflexivity|exact (quiet_NaN_absorbs o t v A B)]. Qed.

Lemma c76_is_exact : forall o t op a r x y z, signed_rep t -> wf_args t a ->
  left_value a = Some x -> right_value a = Some y -> exact op x y = Some z ->
  p_arith (denote o) t op a = Ok r -> nl_is_exact = true /\ same_value (value r) (Some z).
Proof.
  intros o t op a r x y z [W S] WA L R E H.
  assert (N : right_value a <> None) by (rewrite R; discriminate).
  pose proof (denote_exact_opt o t op a r W S WA (or_intror (or_intror N)) H) as X.
  rewrite L, R in X. cbn [exact_opt] in X. rewrite E in X. split; [reflexivity|exact X].
Qed.

Lemma c76_is_modulo_refuted : exists l r v x,
  nl_is_modulo uint32 = true /\ wf_raw uint32 l /\ wf_raw uint32 r /\
  p_arith (denote defaults) uint32 Plus (RR l r) = Ok v /\ value v = Some x /\
  forall y k, exact_opt Plus (value l) (value r) = Some y -> ~ (y == x + inject_Z k * inject_Z (rmax uint32 - rmin uint32 + 1))%Q.
Proof. exact is_modulo_refuted. Qed.

Lemma c76_max_digits10_refuted : forall t, wf_rep t -> nl_max_digits10 = 0 /\
  exists v w a b, wf_raw t v /\ wf_raw t w /\ value v = Some a /\ value w = Some b /\ (0 < a < b)%Q /\
    (b * inject_Z (10 ^ nl_max_digits10) < 1)%Q.
Proof.
  intros t W. split; [reflexivity|]. pose proof (rmax_big t W) as B. exists (mkRaw 1 3), (mkRaw 1 2), (1 / 3)%Q, (1 / 2)%Q.
  assert (R : forall z, 0 <= z <= 3 -> in_rep t z = true).
  { intros z Z. apply in_rep_iff. pose proof (rmin_nonpos t W). lia. }
  split; [split; apply R; cbn; lia|]. split; [split; apply R; cbn; lia|]. split; [reflexivity|]. split; [reflexivity|].
  split; [split; reflexivity|reflexivity].
Qed.

Lemma c76_traps_refuted : forall o, nl_traps = false /\
  p_arith (denote o) int32 Modulus (RR (mkRaw 1 1) (mkRaw 0 1)) = UB DivByZero.
Proof. exact traps_refuted. Qed.

