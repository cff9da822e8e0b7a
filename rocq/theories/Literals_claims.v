(** Proofs of the statements in Props_Literals.v. *)

From Coq Require Import String ZArith QArith List Bool Lia.
From Verif Require Import Machine Raw Ops Spec Fraction Parse Parse_spec Literals Literals_spec.
From Verif Require Import Machine_proofs Value_proofs Ops_proofs Fraction_proofs Parse_claims Literals_proofs.
Import ListNotations.
Open Scope Z_scope.

Lemma c53_quotient : forall t n d, wf_rep t -> in_rep t d = true ->
  literal_divide_int t n (literal_fr d) = mkRaw n d /\
  literal_divide_int t n (literal_posate (literal_fr d)) = mkRaw n d.
Proof. intros t n d W D. split; now apply literal_int_ok. Qed.

Lemma c53_negated : forall t n d, wf_rep t -> 0 <= d < 2 ^ 63 -> in_rep t (- d) = true ->
  exists v, literal_negate (literal_fr d) = Ok v /\ literal_divide_int t n v = mkRaw n (- d).
Proof. exact literal_negate_ok. Qed.

Lemma c53_double_negated : forall d, 0 <= d < 2 ^ 63 ->
  (do v <- literal_negate (literal_fr d); literal_negate v) = Ok d.
Proof. exact literal_double_negate. Qed.

Lemma c53_fraction_over_literal : forall o t f d r,
  wf_rep t -> rsigned t = true -> wf_raw t f -> in_rep t d = true ->
  literal_divide_fraction (denote o) t f (literal_fr d) = Ok r ->
  same_value (value r) (exact_opt Divides (value f) (Some (inject_Z d))).
Proof. exact literal_divide_fraction_exact. Qed.

Lemma c53_chain_exact : forall o t a b l r,
  wf_rep t -> rsigned t = true -> in_rep t a = true -> in_rep t b = true ->
  (forall x y, In (x, y) l -> in_rep t x = true /\ in_rep t y = true) ->
  literal_chain (denote o) t a b l = Ok r ->
  same_value (value r) (quotient_product ((a, b) :: l)).
Proof. exact literal_chain_exact. Qed.

Lemma c53_too_large_refuted : exists n d,
  0 <= d < 2 ^ 64 /\ in_rep int32 n = true /\
  literal_divide_int int32 n (literal_fr d) = mkRaw 1 1 /\
  ~ same_value (value (mkRaw 1 1)) (quotient n d).
Proof.
  exists 1, 4294967297. repeat split; try reflexivity; try lia. intros H. vm_compute in H. discriminate.
Qed.

Lemma c53_negate_min_undefined : literal_negate (literal_fr (2 ^ 63)) = UB Overflow.
Proof. reflexivity. Qed.

Lemma c61_dec_exact : forall l x,
  valid_literal l -> Z.of_nat (length (spell l)) <= 2147483647 ->
  literal_dec (spell l) = Ok x ->
  exists r v, x = Some r /\ value r = Some v /\ (v == literal_value l)%Q.
Proof.
  intros l x V L H. unfold literal_dec in H. inv_bind H.
  destruct (c36_conversion_exact defaults int64 l a) as [v [E1 E2]]; auto; try reflexivity; [unfold wf_rep, int64; cbn; lia|].
  exists a, v. repeat split; auto. inversion H. unfold is_defined. unfold value in E1.
  destruct (den a =? 0); [discriminate|reflexivity].
Qed.

Lemma c61_dec_throws : forall s,
  Z.of_nat (length s) < 2 ^ 63 -> ~ (exists l, valid_literal l /\ s = spell l) ->
  literal_dec s = Ok None.
Proof.
  intros s L N. unfold literal_dec. rewrite (c36_rejected_is_undefined defaults int64 s L N). reflexivity.
Qed.

