(** Proofs of the statements in Props_Blend.v. *)

From Coq Require Import ZArith QArith List Bool Lia Permutation.
From Verif Require Import Machine Raw Ops Spec Fraction Mixed_spec Program Wide_spec Blend_spec.
From Verif Require Import Machine_proofs Blend_proofs.
Import ListNotations.
Open Scope Z_scope.

Lemma c113_type : forall ty e, In (ftype ty e) (operand_types ty e) /\
  forall t, In t (operand_types ty e) -> below t (ftype ty e).
Proof. exact ftype_max. Qed.

Lemma c113_type_order : forall ty ty' e e',
  (forall t, In t (operand_types ty e) <-> In t (operand_types ty' e')) -> ftype ty e = ftype ty' e'.
Proof. exact ftype_order. Qed.

Lemma c113_order : forall o ty ty' s s' op e e' r r', output_canonical o = true -> op = Plus \/ op = Multiplies ->
  only op e -> only op e' -> sound ty s e -> sound ty' s' e' -> Permutation (terms s e) (terms s' e') ->
  feval (denote o) ty s e = Ok r -> feval (denote o) ty' s' e' = Ok r' -> r = r'.
Proof. exact any_order. Qed.

Lemma c113_convert_first : forall o t ty s e r, signed_rep t -> sound ty s e -> rbits (ftype ty e) <= rbits t ->
  feval (denote o) ty s e = Ok r ->
  feval (denote o) (fun _ => t) s (retyped_f t e) = Ok r /\ ftype (fun _ => t) (retyped_f t e) = t.
Proof.
  intros o t ty s e r T S L E. split; [|apply retyped_ftype]. exact (one_type o t ty s e r T S L E).
Qed.

Lemma c113_signed : forall ty s e, typed_store ty s -> static_f e -> sound ty s e /\ signed_rep (ftype ty e).
Proof. exact signed_sound. Qed.

Lemma c113_unsigned_refuted : exists ty s e e' r r', only Plus e /\ only Plus e' /\ terms s e = terms s e' /\
  ftype ty e = ftype ty e' /\ feval (denote defaults) ty s e = Ok r /\ feval (denote defaults) ty s e' = Ok r' /\
  ~ same_value (value r) (value r').
Proof.
  pose (a := ELit int32 (mkRaw (-1) 2)). pose (b := ELit uint32 (mkRaw 0 1)). pose (c := ELit int64 (mkRaw 0 1)).
  exists (fun _ => int32), (fun _ => mkRaw 0 1), (EBin Plus (EBin Plus a b) c), (EBin Plus a (EBin Plus b c)).
  eexists _, _. split; [cbn; auto|]. split; [cbn; auto|]. split; [reflexivity|]. split; [reflexivity|].
  split; [vm_compute; reflexivity|]. split; [vm_compute; reflexivity|]. vm_compute. discriminate.
Qed.

Lemma c113_convert_refuted : exists ty s e r, sound ty s e /\
  feval (denote defaults) ty s e = UB Overflow /\
  feval (denote defaults) (fun _ => ftype ty e) s (retyped_f (ftype ty e) e) = Ok r.
Proof.
  exists (fun _ => int32), (fun _ => mkRaw 0 1),
    (EBin Plus (EBin Plus (ELit int32 (mkRaw 2147483647 1)) (ELit int32 (mkRaw 1 1))) (ELit int64 (mkRaw 1 2))).
  eexists. split; [|split; vm_compute; reflexivity].
  cbn [sound sound_i ftype itype]; unfold wf_rep, wf_raw; repeat match goal with |- _ /\ _ => split end; vm_compute; congruence.
Qed.

