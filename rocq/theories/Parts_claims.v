(** Proofs of the statements in Props_Parts.v. *)

From Coq Require Import ZArith QArith Bool Lia.
From Verif Require Import Machine Raw Ops Fraction Spec Mixed_spec Program2_spec Parts Parts_spec Parts_proofs.
Open Scope Z_scope.
Lemma c121_exact : forall o G fuel m n c m', output_canonical o = true -> wf_mem G m -> (forall c, m c = n c) ->
  wf_pstmt o G c -> pexec (denote o) G fuel m c = Some (Ok m') ->
  exists n', prun fuel n c = Some n' /\ (forall c, m' c = n' c) /\ wf_mem G m'.
Proof.
  intros o G fuel m n c m' O W R F H. pose proof (pexec_sim o G fuel m n c O W R F) as M. now rewrite H in M.
Qed.

Lemma c121_still_running : forall o G fuel m n c, output_canonical o = true -> wf_mem G m -> (forall c, m c = n c) ->
  wf_pstmt o G c -> pexec (denote o) G fuel m c = None -> prun fuel n c = None.
Proof.
  intros o G fuel m n c O W R F H. pose proof (pexec_sim o G fuel m n c O W R F) as M. now rewrite H in M.
Qed.

Lemma c121_policies_agree : forall o o' G fuel m c m1 m2, output_canonical o = true -> output_canonical o' = true ->
  wf_mem G m -> wf_pstmt o G c -> wf_pstmt o' G c ->
  pexec (denote o) G fuel m c = Some (Ok m1) -> pexec (denote o') G fuel m c = Some (Ok m2) -> forall d, m1 d = m2 d.
Proof.
  intros o o' G fuel m c m1 m2 O O' W F F' H1 H2 d.
  pose proof (pexec_sim o G fuel m m c O W (fun _ => eq_refl) F) as M1. rewrite H1 in M1.
  pose proof (pexec_sim o' G fuel m m c O' W (fun _ => eq_refl) F') as M2. rewrite H2 in M2.
  destruct M1 as [n1 [E1 [R1 _]]], M2 as [n2 [E2 [R2 _]]]. rewrite R1, R2. congruence.
Qed.

Lemma c121_frame : forall p G fuel m c m' d, pexec p G fuel m c = Some (Ok m') -> ~ may_write c d -> m' d = m d.
Proof.
  exact pexec_frame.
Qed.

Lemma c121_alias_part : forall p G m op x c k, int_ty G k = cell_ty G c ->
  match pexec p G 1 m (PCompoundInt op x (PRead c)),
        pexec p G 2 m (PSeq (PSet (IntVar k) (PRead c)) (PCompoundInt op x (PRead (IntVar k)))) with
  | Some (Ok m1), Some (Ok m2) => forall d, d <> IntVar k -> m1 d = m2 d
  | Some (UB u1), Some (UB u2) => u1 = u2
  | _, _ => False
  end.
Proof.
  exact alias_part.
Qed.

Lemma c121_alias_self : forall p G m op x y, frac_ty G y = frac_ty G x -> y <> x ->
  match pexec p G 1 m (PCompound op x (PVar x)),
        pexec p G 2 m (PSeq (PAssign y (PVar x)) (PCompound op x (PVar y))) with
  | Some (Ok m1), Some (Ok m2) => forall d, d <> NumOf y -> d <> DenOf y -> m1 d = m2 d
  | Some (UB u1), Some (UB u2) => u1 = u2
  | _, _ => False
  end.
Proof.
  exact alias_self.
Qed.

Lemma c121_halving : forall p G s k m, wf_mem G m -> frac_ty G 0 = s -> int_ty G 0 = s ->
  m (IntVar 0) = Z.of_nat k -> 0 < m (DenOf 0) -> m (DenOf 0) * 2 ^ Z.of_nat k <= rmax s ->
  exists m', pexec p G (k + 3) m (halving s) = Some (Ok m') /\ m' (NumOf 0) = m (NumOf 0) /\
    m' (DenOf 0) = m (DenOf 0) * 2 ^ Z.of_nat k /\ forall d, d <> DenOf 0 -> d <> IntVar 0 -> m' d = m d.
Proof.
  exact halving_correct.
Qed.

Lemma c121_narrowing : forall p G m c i m', wf_mem G m -> wf_pint i -> pexec p G 1 m (PSet c i) = Some (Ok m') ->
  in_rep (cell_ty G c) (m' c) = true /\ (2 ^ rbits (cell_ty G c) | m' c - pint_mean m i).
Proof.
  exact narrow_set.
Qed.

Lemma c121_narrowing_update : forall p G m op c i m', wf_mem G m -> wf_pint i ->
  pexec p G 1 m (PUpdate op c i) = Some (Ok m') ->
  in_rep (cell_ty G c) (m' c) = true /\ (2 ^ rbits (cell_ty G c) | m' c - int_mean op (m c) (pint_mean m i)).
Proof.
  exact narrow_update.
Qed.

Lemma c121_narrowing_raw : forall p G m x y m', wf_mem G m -> pexec p G 1 m (PCopyRaw x y) = Some (Ok m') ->
  in_rep (frac_ty G x) (m' (NumOf x)) = true /\ (2 ^ rbits (frac_ty G x) | m' (NumOf x) - m (NumOf y)) /\
  in_rep (frac_ty G x) (m' (DenOf x)) = true /\ (2 ^ rbits (frac_ty G x) | m' (DenOf x) - m (DenOf y)).
Proof.
  exact narrow_raw.
Qed.

Lemma c121_negative_den_refuted : exists G m c m' n',
  wf_mem G m /\ wf_pstmt (ReducedOutput (ReducedInput Safe normalize_signs_mode) normalize_signs_mode) G c /\
  pexec (denote defaults) G 4 m c = Some (Ok m') /\ prun 4 m c = Some n' /\ m' (IntVar 0) <> n' (IntVar 0).
Proof.
  exists (mkTypes (fun _ => int32) (fun _ => int32)), (fun d => match d with NumOf _ => 1 | DenOf _ => 2 | IntVar _ => 0 end),
    (PSeq (PUpdate Multiplies (DenOf 0) (PConst int32 (-1)))
          (PIf (PCmpInt Lt (PVar 0) (PConst int32 0)) (PSet (IntVar 0) (PConst int32 1)) PSkip)).
  eexists. eexists. split; [|split; [|split; [vm_compute; reflexivity|split; [vm_compute; reflexivity|vm_compute; discriminate]]]].
  - intros [x|x|x]; (split; [split; [unfold wf_rep; cbn; lia|reflexivity]|reflexivity]).
  - cbn. unfold signed_rep, wf_rep, cmp_int_suits. cbn. repeat split; auto; try lia.
Qed.

