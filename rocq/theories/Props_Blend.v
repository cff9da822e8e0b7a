(** Property theorems: expressions over fractions and integers of different types.

    Each is closed by the lemma of the same name in Blend_claims.v. *)

From Coq Require Import ZArith QArith List Bool Lia Permutation.
From Verif Require Import Machine Raw Ops Spec Fraction Mixed_spec Program Wide_spec Blend_spec.
From Verif Require Import Machine_proofs Blend_proofs.
Import ListNotations.
Open Scope Z_scope.
From Verif Require Import Blend_claims.

(** C113: the type of a result is the widest type among the operands, unsigned if an
    unsigned one is among the widest. *)
Theorem C113_type : forall ty e, In (ftype ty e) (operand_types ty e) /\
  forall t, In t (operand_types ty e) -> below t (ftype ty e).
Proof. exact c113_type. Qed.
Print Assumptions C113_type.

(** C113: so it depends on neither the order nor the bracketing of the operands. *)
Theorem C113_type_order : forall ty ty' e e',
  (forall t, In t (operand_types ty e) <-> In t (operand_types ty' e')) -> ftype ty e = ftype ty' e'.
Proof. exact c113_type_order. Qed.
Print Assumptions C113_type_order.

(** C113: sums and products of operands of different types, in any order and bracketing,
    are the same fraction, as long as no operator works in an unsigned type. *)
Theorem C113_order : forall o ty ty' s s' op e e' r r', output_canonical o = true -> op = Plus \/ op = Multiplies ->
  only op e -> only op e' -> sound ty s e -> sound ty' s' e' -> Permutation (terms s e) (terms s' e') ->
  feval (denote o) ty s e = Ok r -> feval (denote o) ty' s' e' = Ok r' -> r = r'.
Proof. exact c113_order. Qed.
Print Assumptions C113_order.

(** C113: what an expression gives, it gives with every operand converted to the type of
    the result, or to any wider signed type, beforehand. *)
Theorem C113_convert_first : forall o t ty s e r, signed_rep t -> sound ty s e -> rbits (ftype ty e) <= rbits t ->
  feval (denote o) ty s e = Ok r ->
  feval (denote o) (fun _ => t) s (retyped_f t e) = Ok r /\ ftype (fun _ => t) (retyped_f t e) = t.
Proof. exact c113_convert_first. Qed.
Print Assumptions C113_convert_first.

(** C113: no operator works in an unsigned type if no operand has one. *)
Theorem C113_signed : forall ty s e, typed_store ty s -> static_f e -> sound ty s e /\ signed_rep (ftype ty e).
Proof. exact c113_signed. Qed.
Print Assumptions C113_signed.

(** C113: a half of int32, two thirds of int64 and the integer 5 of uint32, added in two ways. *)
Example C113_example :
  let e := EBin Plus (ELit int32 (mkRaw 1 2)) (EBinInt Plus (ELit int64 (mkRaw 2 (-3))) (IConst uint32 5)) in
  let e' := EBin Plus (EIntBin Plus (IConst uint32 5) (ELit int64 (mkRaw 2 (-3)))) (ELit int32 (mkRaw 1 2)) in
  let s := fun _ => mkRaw 0 1 in let ty := fun _ => int32 in
  only Plus e /\ only Plus e' /\ sound ty s e /\ sound ty s e' /\ Permutation (terms s e) (terms s e') /\
  ftype ty e = int64 /\ ftype ty e' = int64 /\
  feval (denote defaults) ty s e = Ok (mkRaw 29 6) /\ feval (denote defaults) ty s e' = Ok (mkRaw 29 6).
Proof.
  cbn zeta.
  split; [cbn; auto|]. split; [cbn; auto|].
  split; [cbn [sound sound_i ftype itype]; unfold wf_rep, wf_raw; repeat match goal with |- _ /\ _ => split end; vm_compute; congruence|].
  split; [cbn [sound sound_i ftype itype]; unfold wf_rep, wf_raw; repeat match goal with |- _ /\ _ => split end; vm_compute; congruence|].
  split; [|repeat match goal with |- _ /\ _ => split end; vm_compute; reflexivity].
  cbn [terms term_i app].
  apply Permutation_sym. apply Permutation_trans with [mkRaw 1 2; mkRaw 5 1; mkRaw 2 (-3)].
  - apply Permutation_sym. apply (Permutation_cons_append [mkRaw 5 1; mkRaw 2 (-3)] (mkRaw 1 2)).
  - apply perm_skip, perm_swap.
Qed.

(** C113: where an operator works in an unsigned type the bracketing decides the value,
    though not the type: -1/2 of int32, 0 of uint32 and 0 of int64. *)
Theorem C113_unsigned_refuted : exists ty s e e' r r', only Plus e /\ only Plus e' /\ terms s e = terms s e' /\
  ftype ty e = ftype ty e' /\ feval (denote defaults) ty s e = Ok r /\ feval (denote defaults) ty s e' = Ok r' /\
  ~ same_value (value r) (value r').
Proof. exact c113_unsigned_refuted. Qed.
Print Assumptions C113_unsigned_refuted.

(** C113: converting first can succeed where the expression overflows in a narrower type. *)
Theorem C113_convert_refuted : exists ty s e r, sound ty s e /\
  feval (denote defaults) ty s e = UB Overflow /\
  feval (denote defaults) (fun _ => ftype ty e) s (retyped_f (ftype ty e) e) = Ok r.
Proof. exact c113_convert_refuted. Qed.
Print Assumptions C113_convert_refuted.
