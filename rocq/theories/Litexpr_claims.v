(** Proofs of the statements in Props_Litexpr.v. *)

From Coq Require Import ZArith QArith List Bool Lia.
From Verif Require Import Machine Raw Ops Spec Literals Overload Litexpr Litexpr_spec.
From Verif Require Import Machine_proofs Literals_proofs Overload_proofs Litexpr_proofs.
Import ListNotations.
Open Scope Z_scope.

Lemma c118_types : forall r e, type_of (cxx r) e = option_map type_of_kind (kind_of e).
Proof. exact types. Qed.

Lemma c118_sound : forall r pol e t x, type_of (cxx r) e = Some t -> proper e -> leval (cxx r) pol e = Ok x ->
  exists v, x = Some v /\ type_of_value v = t /\ proper_value v.
Proof.
  intros r pol e t x T P H. rewrite types in T. destruct (kind_of e) as [k|] eqn:K; [|discriminate].
  destruct (sound_value r pol e k x K P H) as [v [-> [V1 V2]]]. exists v. split; [reflexivity|]. split; [|exact V2].
  rewrite value_type, V1. now inversion T.
Qed.

Lemma c118_quotient : forall r pol t n d, wf_rep t -> in_rep t d = true ->
  let e := LBinary Divides (LInt t n) (LFr d) in let e' := LBinary Divides (LInt t n) (LUnary false (LFr d)) in
  type_of (cxx r) e = Some (Frac (Num t) (Other 0)) /\ leval (cxx r) pol e = Ok (Some (VFrac t 0 (mkRaw n d))) /\
  type_of (cxx r) e' = Some (Frac (Num t) (Other 0)) /\ leval (cxx r) pol e' = Ok (Some (VFrac t 0 (mkRaw n d))).
Proof.
  intros r pol t n d W D e e'. subst e e'. rewrite !types. cbn [kind_of unary_kind binary_kind option_map type_of_kind orb].
  split; [reflexivity|]. rewrite <- (literal_int_ok t n d W D).
  assert (R : resolve (cxx r) (OArith Divides) (Num t) (Den (Flag false) (Other 0)) false = Call NumDen 0 (Frac (Num t) (Other 0))) by apply num_den.
  cbn [leval bind type_of_value lit_type]. unfold lit_type. rewrite R. cbn [call_binary]. split; [reflexivity|]. split; [reflexivity|].
  change (resolve_unary (cxx r) false (Den (Flag false) (Other 0))) with (Call DenUnary 0 (Den (Flag false) (Other 0))).
  cbn [call_unary bind type_of_value]. unfold lit_type. rewrite R. reflexivity.
Qed.

Lemma c118_negated : forall r pol t n d, wf_rep t -> 0 <= d < 2 ^ 63 -> in_rep t (- d) = true ->
  let e := LBinary Divides (LInt t n) (LUnary true (LFr d)) in
  type_of (cxx r) e = Some (Frac (Num t) (Other 0)) /\ leval (cxx r) pol e = Ok (Some (VFrac t 0 (mkRaw n (- d)))).
Proof.
  intros r pol t n d W B D e. subst e. rewrite types. cbn [kind_of unary_kind binary_kind option_map type_of_kind orb].
  split; [reflexivity|]. rewrite <- (literal_int_ok t n (- d) W D).
  cbn [leval bind type_of_value]. unfold lit_type.
  change (resolve_unary (cxx r) true (Den (Flag false) (Other 0))) with (Call DenUnary 0 (Den (Flag true) (Other 0))).
  cbn [call_unary]. unfold literal_fr. rewrite literal_neg_eq by lia. cbn [bind type_of_value]. unfold lit_type.
  rewrite num_den. reflexivity.
Qed.

Lemma c118_exact : forall r pol e t o x q, kind_of e = Some (KFrac t o) -> proper e -> sized e -> spelled e = Some q ->
  leval (cxx r) pol e = Ok x ->
  exists v p, x = Some (VFrac t o v) /\ value v = Some p /\ (p == q)%Q.
Proof.
  intros r pol e t o x q K P Z Q H. destruct (exact_value r pol e _ x q K P Z Q H) as [v [-> [V1 V2]]].
  destruct v as [u z|s z|u o' v]; try discriminate V1. inversion V1; subst. cbn in V2.
  destruct (value v) as [p|] eqn:E; [|contradiction]. exists v, p. auto.
Qed.

Lemma c118_policies : forall r op l e t o, kind_of l = Some (KFrac t o) -> o <> 0%nat ->
  (is_literal e = true \/ exists u, kind_of e = Some (KFrac u 0)) ->
  type_of (cxx r) (LBinary op l e) = None /\ type_of (cxx r) (LBinary op e l) = None.
Proof.
  intros r op l e t o K N H. rewrite !types. cbn [kind_of]. rewrite K. unfold is_literal in H.
  destruct H as [H|[u H]].
  - destruct (kind_of e) as [[u|s|u o']|]; try discriminate H. destruct o; [congruence|]. now destruct op.
  - rewrite H. cbn [binary_kind]. destruct (Nat.eqb_spec o 0); [congruence|]. destruct (Nat.eqb_spec 0 o); [congruence|]. now split.
Qed.

Lemma c118_policies_why : forall r t u o s, o <> 0%nat ->
  resolve (cxx r) (OArith Divides) (Frac (Num t) (Other o)) (lit_type s) false = Ambiguous /\
  forall op, resolve (cxx r) (OArith op) (Frac (Num t) (Other o)) (Frac (Num u) (Other 0)) false = Call Deleted 0 Void.
Proof.
  intros r t u o s N. split.
  - apply frac_den_differ; [congruence|discriminate].
  - intros op. apply differ_arith. congruence.
Qed.

Lemma c118_chain : forall r x l, type_of (cxx r) (chain x l) = Some (Frac (Num (chain_rep x l)) (Other 0)).
Proof.
  intros r x l. rewrite types. unfold chain, chain_rep.
  assert (G : forall l e t, kind_of e = Some (KFrac t 0) ->
    kind_of (fold_left (fun e y => LBinary Divides (LBinary Multiplies e (LInt (fst (fst y)) (snd (fst y)))) (LFr (snd y))) l e)
    = Some (KFrac (fold_left (fun t y => common_rep t (fst (fst y))) l t) 0)).
  { clear. induction l as [|y l IH]; intros e t K; cbn [fold_left]; [exact K|]. apply IH. cbn [kind_of]. rewrite K. reflexivity. }
  rewrite (G l (quotient_of x) (fst (fst x)) eq_refl). reflexivity.
Qed.

Lemma c118_literal_over_literal : forall r s s',
  resolve (cxx r) (OArith Divides) (lit_type s) (lit_type s') false = Call NumDen 0 (Frac (lit_type s) (Other 0)).
Proof. intros r s s'. destruct r, s, s'; vm_compute; reflexivity. Qed.

Lemma c118_own_policy : forall r pol pol' e t o, kind_of e = Some (KFrac t o) -> proper e -> pol o = pol' o ->
  leval (cxx r) pol e = leval (cxx r) pol' e.
Proof.
  intros r pol pol' e t o K P A. apply (own_policy r pol pol' e _ K P). intros t' o' H. inversion H; subst. exact A.
Qed.

Lemma c118_lowest_terms : forall r pol e t o v, kind_of e = Some (KFrac t o) -> proper e -> output_canonical (pol o) = true ->
  match e with
  | LUnary minus _ => minus = true
  | LBinary _ l y => exists u, kind_of l = Some (KFrac u o) \/ kind_of y = Some (KFrac u o)
  | _ => False
  end -> leval (cxx r) pol e = Ok (Some (VFrac t o v)) -> canonical v.
Proof.
  intros r pol e t o v K P C F H. destruct e as [u z|n|u o' w|m e|op l y]; try contradiction.
  - subst m. apply (minus_canonical r pol e t o v); auto. cbn [kind_of] in K.
    destruct (kind_of e) as [[u|s|u o']|]; try discriminate K. exact K.
  - exact (binary_canonical r pol op l y t o v K P F C H).
Qed.

