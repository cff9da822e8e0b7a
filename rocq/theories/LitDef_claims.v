(** Proofs of the statements in Props_LitDef.v. *)

From Coq Require Import String ZArith QArith List Bool Lia.
From Verif Require Import Machine Raw Ops Spec Fraction Fmath Parse Parse_spec Literals Mixed_spec Defined_spec LitDef_spec.
From Verif Require Import Machine_proofs Value_proofs Algebra_proofs Parse_proofs Parse2_proofs LitDef_proofs.
Import ListNotations.
Open Scope Z_scope.

Lemma c90_literal_defined_iff : forall t l, signed_rep t -> valid_literal l ->
  Z.of_nat (length (spell l)) <= 2147483647 ->
  (exists r, string_to_fraction (denote defaults) t (spell l) = Ok r) <-> literal_fits (rmax t) l.
Proof. exact literal_iff. Qed.

Lemma c90_dec_defined_iff : forall l, valid_literal l -> Z.of_nat (length (spell l)) <= 2147483647 ->
  (exists r, literal_dec (spell l) = Ok r) <-> literal_fits (2 ^ 63 - 1) l.
Proof.
  intros l V L. assert (SR : signed_rep int64) by (split; [unfold wf_rep; cbn; lia|reflexivity]).
  rewrite <- (c90_literal_defined_iff int64 l SR V L). unfold literal_dec.
  destruct (string_to_fraction (denote defaults) int64 (spell l)) as [r|u]; cbn [bind].
  - split; intros _; [now eexists|]. now eexists.
  - split; intros [x H]; discriminate.
Qed.

Lemma c90_wider_still_defined : forall t u l r, signed_rep t -> signed_rep u -> rmax t <= rmax u -> valid_literal l ->
  Z.of_nat (length (spell l)) <= 2147483647 ->
  string_to_fraction (denote defaults) t (spell l) = Ok r ->
  string_to_fraction (denote defaults) u (spell l) = Ok r.
Proof.
  intros t u l r ST SU LE V L H.
  assert (F : literal_fits (rmax u) l).
  { destruct (proj1 (c90_literal_defined_iff t l ST V L) (ex_intro _ r H)) as [A [B [C [D E]]]].
    repeat split; try lia. destruct (0 <=? l_scale l); lia. }
  apply (c90_literal_defined_iff u l SU V L) in F as [x X]. rewrite X. f_equal.
  destruct ST as [WT S1], SU as [WU S2].
  destruct (string_to_fraction_exact defaults t l r WT S1 V L H) as [a [VA EA]].
  destruct (string_to_fraction_exact defaults u l x WU S2 V L X) as [b [VB EB]].
  apply canonical_unique; [exact (string_canonical u l x WU S2 V L X)|exact (string_canonical t l r WT S1 V L H)|].
  rewrite VA, VB. cbn [same_value]. now rewrite EA, EB.
Qed.

