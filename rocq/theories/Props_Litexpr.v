(** Property theorems: types and values of expressions with fraction literals.

    Each is closed by the lemma of the same name in Litexpr_claims.v. *)

From Coq Require Import ZArith QArith List Bool Lia.
From Verif Require Import Machine Raw Ops Spec Literals Overload Litexpr Litexpr_spec.
From Verif Require Import Machine_proofs Literals_proofs Overload_proofs Litexpr_proofs.
Import ListNotations.
Open Scope Z_scope.
From Verif Require Import Litexpr_claims.

(** C118: the overloads that a compiler chooses give every expression the type a reader
    expects, and reject every other expression. *)
Theorem C118_types : forall r e, type_of (cxx r) e = option_map type_of_kind (kind_of e).
Proof. exact c118_types. Qed.
Print Assumptions C118_types.

(** C118: the value of an expression has the type of the expression, with parts within
    the representation. *)
Theorem C118_sound : forall r pol e t x, type_of (cxx r) e = Some t -> proper e -> leval (cxx r) pol e = Ok x ->
  exists v, x = Some v /\ type_of_value v = t /\ proper_value v.
Proof. exact c118_sound. Qed.
Print Assumptions C118_sound.

(** C118: n / d_fr, n / +d_fr and n / -d_fr are fractions of the type of n and of the
    default policy. *)
Theorem C118_quotient : forall r pol t n d, wf_rep t -> in_rep t d = true ->
  let e := LBinary Divides (LInt t n) (LFr d) in let e' := LBinary Divides (LInt t n) (LUnary false (LFr d)) in
  type_of (cxx r) e = Some (Frac (Num t) (Other 0)) /\ leval (cxx r) pol e = Ok (Some (VFrac t 0 (mkRaw n d))) /\
  type_of (cxx r) e' = Some (Frac (Num t) (Other 0)) /\ leval (cxx r) pol e' = Ok (Some (VFrac t 0 (mkRaw n d))).
Proof. exact c118_quotient. Qed.
Print Assumptions C118_quotient.

Theorem C118_negated : forall r pol t n d, wf_rep t -> 0 <= d < 2 ^ 63 -> in_rep t (- d) = true ->
  let e := LBinary Divides (LInt t n) (LUnary true (LFr d)) in
  type_of (cxx r) e = Some (Frac (Num t) (Other 0)) /\ leval (cxx r) pol e = Ok (Some (VFrac t 0 (mkRaw n (- d)))).
Proof. exact c118_negated. Qed.
Print Assumptions C118_negated.

(** C118: an expression that the operators compute without undefined behaviour is the
    rational it spells, whatever the representations and policies of its fractions, as long
    as literals fit and the operators work in signed types. *)
Theorem C118_exact : forall r pol e t o x q, kind_of e = Some (KFrac t o) -> proper e -> sized e -> spelled e = Some q ->
  leval (cxx r) pol e = Ok x ->
  exists v p, x = Some (VFrac t o v) /\ value v = Some p /\ (p == q)%Q.
Proof. exact c118_exact. Qed.
Print Assumptions C118_exact.

(** C118: literals have the default policy and mix with no other: dividing a fraction of
    another policy by a literal is ambiguous, and every operator between such a fraction
    and one made from a literal is deleted. *)
Theorem C118_policies : forall r op l e t o, kind_of l = Some (KFrac t o) -> o <> 0%nat ->
  (is_literal e = true \/ exists u, kind_of e = Some (KFrac u 0)) ->
  type_of (cxx r) (LBinary op l e) = None /\ type_of (cxx r) (LBinary op e l) = None.
Proof. exact c118_policies. Qed.
Print Assumptions C118_policies.

Theorem C118_policies_why : forall r t u o s, o <> 0%nat ->
  resolve (cxx r) (OArith Divides) (Frac (Num t) (Other o)) (lit_type s) false = Ambiguous /\
  forall op, resolve (cxx r) (OArith op) (Frac (Num t) (Other o)) (Frac (Num u) (Other 0)) false = Call Deleted 0 Void.
Proof. exact c118_policies_why. Qed.
Print Assumptions C118_policies_why.

(** C118: a1 / b1_fr * a2 / b2_fr * ... of any length is a fraction of the common type of
    the integers; an int literal among longs does not matter. *)
Theorem C118_chain : forall r x l, type_of (cxx r) (chain x l) = Some (Frac (Num (chain_rep x l)) (Other 0)).
Proof. exact c118_chain. Qed.
Print Assumptions C118_chain.

(** C118: a literal over a literal is accepted: its type is a fraction of literals, which
    has no arithmetic. *)
Theorem C118_literal_over_literal : forall r s s',
  resolve (cxx r) (OArith Divides) (lit_type s) (lit_type s') false = Call NumDen 0 (Frac (lit_type s) (Other 0)).
Proof. exact c118_literal_over_literal. Qed.
Print Assumptions C118_literal_over_literal.

(** C118: the policy that computes an expression is that of its fractions: two assignments
    of policies that agree on it give the same outcome. *)
Theorem C118_own_policy : forall r pol pol' e t o, kind_of e = Some (KFrac t o) -> proper e -> pol o = pol' o ->
  leval (cxx r) pol e = leval (cxx r) pol' e.
Proof. exact c118_own_policy. Qed.
Print Assumptions C118_own_policy.

(** C118: if that policy reduces its results, the result of every operator applied to a
    fraction is in lowest terms. *)
Theorem C118_lowest_terms : forall r pol e t o v, kind_of e = Some (KFrac t o) -> proper e -> output_canonical (pol o) = true ->
  match e with
  | LUnary minus _ => minus = true
  | LBinary _ l y => exists u, kind_of l = Some (KFrac u o) \/ kind_of y = Some (KFrac u o)
  | _ => False
  end -> leval (cxx r) pol e = Ok (Some (VFrac t o v)) -> canonical v.
Proof. exact c118_lowest_terms. Qed.
Print Assumptions C118_lowest_terms.

(** int 3 / -4_fr * long 2 / 9_fr + x, where x has the default policy; and the same with an
    x of another policy. *)
Example C118_nonvacuous :
  let pol := fun n => match n with O => defaults | _ => Fast end in
  let e := LBinary Divides (LBinary Multiplies (LBinary Divides (LInt int32 3) (LUnary true (LFr 4))) (LInt int64 2)) (LFr 9) in
  let f := LBinary Plus e (LFrac int32 0 (mkRaw 1 2)) in
  proper f /\ sized f /\ kind_of f = Some (KFrac int64 0) /\ type_of (cxx true) f = Some (Frac (Num int64) (Other 0)) /\
  leval (cxx true) pol f = Ok (Some (VFrac int64 0 (mkRaw 1 3))) /\
  type_of (cxx true) (LBinary Plus e (LFrac int32 1 (mkRaw 1 2))) = None /\
  chain_rep (int32, 3, 4) [(int64, 2, 9); (int32, 5, 7)] = int64.
Proof.
  cbv zeta.
  split; [cbn [proper]; unfold wf_rep, wf_raw; repeat match goal with |- _ /\ _ => split end; vm_compute; congruence|].
  split; [|vm_compute; repeat match goal with |- _ /\ _ => split end; reflexivity].
  cbn [sized]. repeat match goal with |- _ /\ _ => split end; auto.
  all: try (intros _; vm_compute; split; reflexivity).
  all: try (intros t o H; vm_compute in H; inversion H; reflexivity).
  all: intros _ t o H; vm_compute in H; inversion H; reflexivity.
Qed.

(** - (2/4): the policy with number 1 does not reduce, the default one does. *)
Example C118_own_policy_nonvacuous :
  let pol := fun n => match n with O => defaults | _ => Fast end in
  let e := fun o => LUnary true (LFrac int32 o (mkRaw 2 4)) in
  kind_of (e 0%nat) = Some (KFrac int32 0) /\ kind_of (e 1%nat) = Some (KFrac int32 1) /\
  proper (e 0%nat) /\ output_canonical (pol 0%nat) = true /\
  leval (cxx true) pol (e 0%nat) = Ok (Some (VFrac int32 0 (mkRaw (-1) 2))) /\
  leval (cxx true) pol (e 1%nat) = Ok (Some (VFrac int32 1 (mkRaw (-2) 4))).
Proof.
  cbv zeta. split; [reflexivity|]. split; [reflexivity|].
  split; [cbn [proper]; unfold wf_rep, wf_raw; repeat match goal with |- _ /\ _ => split end; vm_compute; congruence|].
  vm_compute. repeat match goal with |- _ /\ _ => split end; reflexivity.
Qed.
