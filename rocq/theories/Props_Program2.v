(** Property theorems: client programs under every policy.

    Each is closed by the lemma of the same name in Program2_claims.v. *)

From Coq Require Import ZArith QArith Bool List Lia.
From Verif Require Import Machine Raw Ops Fraction Spec Mixed_spec Program Program_spec Program2_spec.
From Verif Require Import Program_proofs Program2_proofs Program3_proofs Program4_proofs Program5_proofs.
Open Scope Z_scope.
From Verif Require Import Program2_claims.

(** C77: a program that suits the policy [o] (see [suits]), started in any
    memory, not only one in lowest terms, that ends without undefined behaviour
    ends in a memory that represents the result of the program over the
    rationals.  With [pos = true] every policy is covered, for programs without
    division over positive denominators. *)
Theorem C77_simulation : forall o pos ty fuel s q c s',
  any_store pos ty s -> represents s q -> suits o pos ty c ->
  exec (denote o) ty fuel s c = Some (Ok s') ->
  exists q', run fuel q c = Some q' /\ represents s' q' /\ any_store pos ty s'.
Proof. exact c77_simulation. Qed.
Print Assumptions C77_simulation.

(** C77: it runs on exactly as long as the program over the rationals does. *)
Theorem C77_still_running : forall o pos ty fuel s q c,
  any_store pos ty s -> represents s q -> suits o pos ty c ->
  exec (denote o) ty fuel s c = None -> run fuel q c = None.
Proof. exact c77_still_running. Qed.
Print Assumptions C77_still_running.

(** C77: two policies that the program suits leave equal values in every
    variable, if neither meets undefined behaviour. *)
Theorem C77_policies_agree : forall o o' pos pos' ty fuel s c s1 s2,
  any_store pos ty s -> any_store pos' ty s -> suits o pos ty c -> suits o' pos' ty c ->
  exec (denote o) ty fuel s c = Some (Ok s1) -> exec (denote o') ty fuel s c = Some (Ok s2) ->
  forall x, same_value (value (s1 x)) (value (s2 x)).
Proof. exact c77_policies_agree. Qed.
Print Assumptions C77_policies_agree.

(** C77: the policies under which every program from lowest terms that reads no
    parts is faithful to the rationals are exactly those that return lowest
    terms or normalise the signs of their inputs.  The policies of the library
    without reduced outputs are not among them. *)
Theorem C77_faithful_policies : forall o,
  faithful o <-> output_canonical o = true \/ normalises_inputs o = true.
Proof. exact c77_faithful_policies. Qed.
Print Assumptions C77_faithful_policies.

(** C78: a policy that reduces its inputs keeps a program whose values are
    small free of undefined behaviour, although its results are not reduced:
    the bound is the one of C67, and the initial memory need not be in lowest
    terms, only free of the least value of the type. *)
Theorem C78_total : forall o pos B ty fuel s q c q',
  reduces_inputs o = true -> any_store pos ty s -> represents s q -> no_least_store ty s ->
  suits o pos ty c -> no_least_s c -> room_s B ty c -> run_small B fuel q c = Some q' ->
  exists s', exec (denote o) ty fuel s c = Some (Ok s') /\ represents s' q' /\ any_store pos ty s'.
Proof. exact c78_total. Qed.
Print Assumptions C78_total.

(** Without reduced inputs or outputs the bound does not suffice: under [safe]
    and [fast] some program overflows although all its values are small. *)
Theorem C78_unreduced_refuted : forall o, o = Safe \/ o = Fast ->
  exists B ty fuel s q c q',
    wf_store ty s /\ represents s q /\ wf_s ty c /\ no_parts c /\ room_s B ty c /\
    run_small B fuel q c = Some q' /\ exec (denote o) ty fuel s c = Some (UB Overflow).
Proof. exact c78_unreduced_refuted. Qed.
Print Assumptions C78_unreduced_refuted.

(** [product_program] over unreduced positive denominators, under every policy
    of the library: 5! / 3 + (5 - 6). *)
Example C77_every_policy :
  let s := fun x => if Nat.eqb x 0 then mkRaw 10 2 else mkRaw 0 7 in
  any_store true (fun _ => int64) s /\
  (forall o, suits o true (fun _ => int64) product_program) /\
  (forall o, In o (Safe :: Fast :: safe_reduced_i :: safe_reduced_o :: safe_reduced_io :: fast_reduced_io :: nil)%list ->
     match exec (denote o) (fun _ => int64) 12 s product_program with
     | Some (Ok s') => same_value (value (s' 2%nat)) (Some (39 # 1))
     | _ => False
     end).
Proof.
  cbn zeta. split; [|split].
  - intros [|x]; cbn; unfold signed_rep, wf_rep, wf_raw, sign_ok; cbn; repeat split; lia.
  - intros o. cbn. unfold arith_suits, cmp_suits, signed_rep, wf_rep, wf_raw, sign_ok; cbn.
    repeat split; try lia; auto; left; discriminate.
  - intros o. cbn [In]. intuition (subst; vm_compute; reflexivity).
Qed.

(** Division with inputs normalised: x = (4/-6) / (2/-5), compared with 1. *)
Example C77_division :
  let o := ReducedInput Fast normalize_signs_mode in
  let c := SSeq (SAssign 0 (EBin Divides (EVar 1) (ELit int64 (mkRaw 2 (-5)))))
          (SIf (BIntCmp Lt (IConst int32 1) (EVar 0)) (SOpAssign Minus 0 (EVar 1)) SSkip) in
  let s := fun _ => mkRaw 4 (-6) in
  any_store false (fun _ => int64) s /\ suits o false (fun _ => int64) c /\
  match exec (denote o) (fun _ => int64) 9 s c, run 9 (fun _ => Some (-2 # 3)) c with
  | Some (Ok s'), Some q' => same_value (value (s' 0%nat)) (q' 0%nat) /\ same_value (q' 0%nat) (Some (7 # 3))
  | _, _ => False
  end /\
  faithful safe_reduced_o /\ ~ faithful Safe /\ ~ faithful Fast /\ ~ faithful safe_reduced_i.
Proof.
  cbn zeta. split; [|split; [|split; [|repeat split]]].
  - intros x; cbn; unfold signed_rep, wf_rep, wf_raw, sign_ok; cbn; repeat split; try lia; discriminate.
  - cbn. unfold arith_suits, cmp_int_suits, signed_rep, wf_rep, wf_raw, sign_ok; cbn.
    repeat split; try lia; auto; discriminate.
  - vm_compute. split; reflexivity.
  - apply faithful_iff. left. reflexivity.
  - intros H. apply faithful_iff in H. cbn in H. intuition discriminate.
  - intros H. apply faithful_iff in H. cbn in H. intuition discriminate.
  - intros H. apply faithful_iff in H. cbn in H. intuition discriminate.
Qed.

(** The hypotheses of C78, met by [product_program] for n = 5. *)
Example C78_nonvacuous :
  let s := fun x => if Nat.eqb x 0 then mkRaw 10 2 else mkRaw 0 7 in
  reduces_inputs safe_reduced_i = true /\ no_least_store (fun _ => int64) s /\
  no_least_s product_program /\ room_s 200 (fun _ => int64) product_program /\
  match run_small 200 12 (fun x => value (s x)) product_program with
  | Some q => same_value (q 2%nat) (Some (39 # 1))
  | None => False
  end.
Proof.
  cbn zeta. split; [reflexivity|]. split; [intros [|x]; split; cbn; lia|].
  split; [cbn; unfold no_least; cbn; repeat split; lia|].
  split; [cbn; unfold room; cbn; repeat split; lia|]. vm_compute. reflexivity.
Qed.
