(** Property theorems: programs that write the parts of fractions.

    Each is closed by the lemma of the same name in Parts_claims.v. *)

From Coq Require Import ZArith QArith Bool Lia.
From Verif Require Import Machine Raw Ops Fraction Spec Mixed_spec Program2_spec Parts Parts_spec Parts_proofs.
Open Scope Z_scope.
From Verif Require Import Parts_claims.

(** C121: under every policy that returns lowest terms, a program that reads and writes
    parts of fractions and integers leaves in every object what it would leave there if
    integers had no bounds and operators gave the exact result in lowest terms. *)
Theorem C121_exact : forall o G fuel m n c m', output_canonical o = true -> wf_mem G m -> (forall c, m c = n c) ->
  wf_pstmt o G c -> pexec (denote o) G fuel m c = Some (Ok m') ->
  exists n', prun fuel n c = Some n' /\ (forall c, m' c = n' c) /\ wf_mem G m'.
Proof. exact c121_exact. Qed.
Print Assumptions C121_exact.

Theorem C121_still_running : forall o G fuel m n c, output_canonical o = true -> wf_mem G m -> (forall c, m c = n c) ->
  wf_pstmt o G c -> pexec (denote o) G fuel m c = None -> prun fuel n c = None.
Proof. exact c121_still_running. Qed.
Print Assumptions C121_still_running.

(** C121: so two such policies that both finish leave the same memory. *)
Theorem C121_policies_agree : forall o o' G fuel m c m1 m2, output_canonical o = true -> output_canonical o' = true ->
  wf_mem G m -> wf_pstmt o G c -> wf_pstmt o' G c ->
  pexec (denote o) G fuel m c = Some (Ok m1) -> pexec (denote o') G fuel m c = Some (Ok m2) -> forall d, m1 d = m2 d.
Proof. exact c121_policies_agree. Qed.
Print Assumptions C121_policies_agree.

(** C121: under any policy, a part that no statement of the program assigns to keeps its
    contents: x.num() = i leaves the denominator alone, and the other variables. *)
Theorem C121_frame : forall p G fuel m c m' d, pexec p G fuel m c = Some (Ok m') -> ~ may_write c d -> m' d = m d.
Proof. exact c121_frame. Qed.
Print Assumptions C121_frame.

(** C121: an operand that is a part of the variable assigned to, as in x *= x.num() or
    x -= x.den(), may as well be copied to an integer variable first. *)
Theorem C121_alias_part : forall p G m op x c k, int_ty G k = cell_ty G c ->
  match pexec p G 1 m (PCompoundInt op x (PRead c)),
        pexec p G 2 m (PSeq (PSet (IntVar k) (PRead c)) (PCompoundInt op x (PRead (IntVar k)))) with
  | Some (Ok m1), Some (Ok m2) => forall d, d <> IntVar k -> m1 d = m2 d
  | Some (UB u1), Some (UB u2) => u1 = u2
  | _, _ => False
  end.
Proof. exact c121_alias_part. Qed.
Print Assumptions C121_alias_part.

(** C121: and so may the variable itself, as in x /= x. *)
Theorem C121_alias_self : forall p G m op x y, frac_ty G y = frac_ty G x -> y <> x ->
  match pexec p G 1 m (PCompound op x (PVar x)),
        pexec p G 2 m (PSeq (PAssign y (PVar x)) (PCompound op x (PVar y))) with
  | Some (Ok m1), Some (Ok m2) => forall d, d <> NumOf y -> d <> DenOf y -> m1 d = m2 d
  | Some (UB u1), Some (UB u2) => u1 = u2
  | _, _ => False
  end.
Proof. exact c121_alias_self. Qed.
Print Assumptions C121_alias_self.

(** C121: the loop while (k > 0) { x.den() *= 2; k -= 1; } divides x by 2^k and changes
    nothing but k and x.den(), under any policy, if the denominator fits. *)
Theorem C121_halving : forall p G s k m, wf_mem G m -> frac_ty G 0 = s -> int_ty G 0 = s ->
  m (IntVar 0) = Z.of_nat k -> 0 < m (DenOf 0) -> m (DenOf 0) * 2 ^ Z.of_nat k <= rmax s ->
  exists m', pexec p G (k + 3) m (halving s) = Some (Ok m') /\ m' (NumOf 0) = m (NumOf 0) /\
    m' (DenOf 0) = m (DenOf 0) * 2 ^ Z.of_nat k /\ forall d, d <> DenOf 0 -> d <> IntVar 0 -> m' d = m d.
Proof. exact c121_halving. Qed.
Print Assumptions C121_halving.

(** C121: an integer that does not fit into the part it is assigned to is reduced modulo
    2^bits, also after x.num() op= i, which is computed in the wider type. *)
Theorem C121_narrowing : forall p G m c i m', wf_mem G m -> wf_pint i -> pexec p G 1 m (PSet c i) = Some (Ok m') ->
  in_rep (cell_ty G c) (m' c) = true /\ (2 ^ rbits (cell_ty G c) | m' c - pint_mean m i).
Proof. exact c121_narrowing. Qed.
Print Assumptions C121_narrowing.

Theorem C121_narrowing_update : forall p G m op c i m', wf_mem G m -> wf_pint i ->
  pexec p G 1 m (PUpdate op c i) = Some (Ok m') ->
  in_rep (cell_ty G c) (m' c) = true /\ (2 ^ rbits (cell_ty G c) | m' c - int_mean op (m c) (pint_mean m i)).
Proof. exact c121_narrowing_update. Qed.
Print Assumptions C121_narrowing_update.

Theorem C121_narrowing_raw : forall p G m x y m', wf_mem G m -> pexec p G 1 m (PCopyRaw x y) = Some (Ok m') ->
  in_rep (frac_ty G x) (m' (NumOf x)) = true /\ (2 ^ rbits (frac_ty G x) | m' (NumOf x) - m (NumOf y)) /\
  in_rep (frac_ty G x) (m' (DenOf x)) = true /\ (2 ^ rbits (frac_ty G x) | m' (DenOf x) - m (DenOf y)).
Proof. exact c121_narrowing_raw. Qed.
Print Assumptions C121_narrowing_raw.

(** C121: comparisons with integers do not survive writing a negative denominator under
    the default policy: after x.den() *= -1, 1/-2 < 0 is false. *)
Theorem C121_negative_den_refuted : exists G m c m' n',
  wf_mem G m /\ wf_pstmt (ReducedOutput (ReducedInput Safe normalize_signs_mode) normalize_signs_mode) G c /\
  pexec (denote defaults) G 4 m c = Some (Ok m') /\ prun 4 m c = Some n' /\ m' (IntVar 0) <> n' (IntVar 0).
Proof. exact c121_negative_den_refuted. Qed.
Print Assumptions C121_negative_den_refuted.

(** x = y = 3/2, k = 5: x.num() = x.num() - x.den(); x.num() *= -4; x /= x.num();
    if (x > y) ; else k %= y.num(); under the default policy. *)
Example C121_nonvacuous :
  let G := mkTypes (fun _ => int32) (fun _ => int64) in
  let m := fun d : cell => match d with NumOf _ => 3 | DenOf _ => 2 | IntVar _ => 5 end in
  let c := PSeq (PSet (NumOf 0) (PInt Minus (PRead (NumOf 0)) (PRead (DenOf 0))))
             (PSeq (PUpdate Multiplies (NumOf 0) (PConst int32 (-4)))
               (PSeq (PCompoundInt Divides 0 (PRead (NumOf 0)))
                 (PIf (PCmp Gt (PVar 0) (PVar 1)) PSkip (PUpdate Modulus (IntVar 0) (PRead (NumOf 1)))))) in
  wf_mem G m /\ wf_pstmt defaults G c /\
  exists m', pexec (denote defaults) G 5 m c = Some (Ok m') /\
    m' (NumOf 0) = 1 /\ m' (DenOf 0) = 2 /\ m' (NumOf 1) = 3 /\ m' (IntVar 0) = 2.
Proof.
  cbv zeta. split; [|split].
  - intros [x|x|x]; (split; [split; [unfold wf_rep; cbn; lia|reflexivity]|reflexivity]).
  - cbn. unfold signed_rep, wf_rep, arith_suits, cmp_suits. cbn.
    repeat match goal with |- _ /\ _ => split end; auto; try lia; try reflexivity.
  - eexists. split; [vm_compute; reflexivity|]. vm_compute. auto.
Qed.

(** An int x = 3/2 and a long k = 4294967301: x.num() += k leaves 8/2. *)
Example C121_narrowing_nonvacuous :
  let G := mkTypes (fun _ => int32) (fun _ => int64) in
  let m := fun d : cell => match d with NumOf _ => 3 | DenOf _ => 2 | IntVar _ => 4294967301 end in
  wf_mem G m /\
  exists m', pexec (denote defaults) G 1 m (PUpdate Plus (NumOf 0) (PRead (IntVar 0))) = Some (Ok m') /\
    m' (NumOf 0) = 8 /\ m' (DenOf 0) = 2.
Proof.
  cbv zeta. split.
  - intros [x|x|x]; (split; [split; [unfold wf_rep; cbn; lia|reflexivity]|reflexivity]).
  - eexists. split; [vm_compute; reflexivity|]. vm_compute. auto.
Qed.
