(** Property theorems: fraction literals.

    Each is closed by the lemma of the same name in Literals_claims.v. *)

From Coq Require Import String ZArith QArith List Bool Lia.
From Verif Require Import Machine Raw Ops Spec Fraction Parse Parse_spec Literals Literals_spec.
From Verif Require Import Machine_proofs Value_proofs Ops_proofs Fraction_proofs Parse_claims Literals_proofs.
Import ListNotations.
Open Scope Z_scope.
From Verif Require Import Literals_claims.

(** C53: n / d_fr and n / -d_fr, unreduced. *)
Theorem C53_quotient : forall t n d, wf_rep t -> in_rep t d = true ->
  literal_divide_int t n (literal_fr d) = mkRaw n d /\
  literal_divide_int t n (literal_posate (literal_fr d)) = mkRaw n d.
Proof. exact c53_quotient. Qed.
Print Assumptions C53_quotient.

Theorem C53_negated : forall t n d, wf_rep t -> 0 <= d < 2 ^ 63 -> in_rep t (- d) = true ->
  exists v, literal_negate (literal_fr d) = Ok v /\ literal_divide_int t n v = mkRaw n (- d).
Proof. exact c53_negated. Qed.
Print Assumptions C53_negated.

(** C53: two minus signs cancel. *)
Theorem C53_double_negated : forall d, 0 <= d < 2 ^ 63 ->
  (do v <- literal_negate (literal_fr d); literal_negate v) = Ok d.
Proof. exact c53_double_negated. Qed.
Print Assumptions C53_double_negated.

(** C53: dividing a fraction by a literal is exact. *)
Theorem C53_fraction_over_literal : forall o t f d r,
  wf_rep t -> rsigned t = true -> wf_raw t f -> in_rep t d = true ->
  literal_divide_fraction (denote o) t f (literal_fr d) = Ok r ->
  same_value (value r) (exact_opt Divides (value f) (Some (inject_Z d))).
Proof. exact c53_fraction_over_literal. Qed.
Print Assumptions C53_fraction_over_literal.

(** C53: a chain a1/b1_fr * a2/b2_fr * ... of any length is the exact product of
    the quotients. *)
Theorem C53_chain_exact : forall o t a b l r,
  wf_rep t -> rsigned t = true -> in_rep t a = true -> in_rep t b = true ->
  (forall x y, In (x, y) l -> in_rep t x = true /\ in_rep t y = true) ->
  literal_chain (denote o) t a b l = Ok r ->
  same_value (value r) (quotient_product ((a, b) :: l)).
Proof. exact c53_chain_exact. Qed.
Print Assumptions C53_chain_exact.

(** C53: outside the type the literal is silently reduced modulo 2^bits. *)
Theorem C53_too_large_refuted : exists n d,
  0 <= d < 2 ^ 64 /\ in_rep int32 n = true /\
  literal_divide_int int32 n (literal_fr d) = mkRaw 1 1 /\
  ~ same_value (value (mkRaw 1 1)) (quotient n d).
Proof. exact c53_too_large_refuted. Qed.
Print Assumptions C53_too_large_refuted.

Theorem C53_negate_min_undefined : literal_negate (literal_fr (2 ^ 63)) = UB Overflow.
Proof. exact c53_negate_min_undefined. Qed.
Print Assumptions C53_negate_min_undefined.

Example C53_nonvacuous :
  literal_divide_int int32 6 (literal_fr 8) = mkRaw 6 8 /\
  literal_negate (literal_fr 8) = Ok (-8) /\
  literal_chain (denote defaults) int32 3 4 [(2, 9); (5, 7)] = Ok (mkRaw 5 42) /\
  same_value (quotient_product [(3, 4); (2, 9); (5, 7)]) (Some (5 # 42)).
Proof. repeat split. Qed.

(** C61: a _dec literal either throws or is exactly the value it spells; it
    throws exactly when the spelling has no point (or is no literal). *)
Theorem C61_dec_exact : forall l x,
  valid_literal l -> Z.of_nat (length (spell l)) <= 2147483647 ->
  literal_dec (spell l) = Ok x ->
  exists r v, x = Some r /\ value r = Some v /\ (v == literal_value l)%Q.
Proof. exact c61_dec_exact. Qed.
Print Assumptions C61_dec_exact.

Theorem C61_dec_throws : forall s,
  Z.of_nat (length s) < 2 ^ 63 -> ~ (exists l, valid_literal l /\ s = spell l) ->
  literal_dec s = Ok None.
Proof. exact c61_dec_throws. Qed.
Print Assumptions C61_dec_throws.

Example C61_nonvacuous :
  literal_dec (codes "12.75") = Ok (Some (mkRaw 51 4)) /\ literal_dec (codes "12") = Ok None /\
  literal_dec (codes "1e5") = Ok None.
Proof. repeat split. Qed.
