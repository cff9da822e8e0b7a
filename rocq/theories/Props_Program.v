(** Property theorems: client programs compute over the rationals.

    Each is closed by the lemma of the same name in Program_claims.v. *)

From Coq Require Import ZArith QArith Qabs Bool Lia Lqa.
From Verif Require Import Machine Raw Ops Spec Fraction Fmath Mixed_spec Program Program_spec.
From Verif Require Import Machine_proofs Value_proofs Program_proofs Program2_proofs.
Open Scope Z_scope.
From Verif Require Import Program_claims.

(** C66: a program over fraction variables with any policy that returns
    lowest terms, started in a memory that represents the rationals [q], and
    that ends without undefined behaviour, ends exactly when the program over
    the rationals ends, in a memory that represents its result, every variable
    again in lowest terms.  Loops and branches are decided as over the
    rationals, aliasing such as x *= x and x += x.num() included. *)
Theorem C66_simulation : forall o ty fuel s q c s',
  output_canonical o = true -> wf_store ty s -> represents s q -> wf_s ty c ->
  exec (denote o) ty fuel s c = Some (Ok s') ->
  exists q', run fuel q c = Some q' /\ represents s' q' /\ wf_store ty s'.
Proof. exact c66_simulation. Qed.
Print Assumptions C66_simulation.

(** C66: it runs on exactly as long as the program over the rationals does. *)
Theorem C66_still_running : forall o ty fuel s q c,
  output_canonical o = true -> wf_store ty s -> represents s q -> wf_s ty c ->
  exec (denote o) ty fuel s c = None -> run fuel q c = None.
Proof. exact c66_still_running. Qed.
Print Assumptions C66_still_running.

(** C66: the choice between such policies is not observable: if neither traps,
    the final memories are identical, part by part. *)
Theorem C66_policies_agree : forall o o' ty fuel s c s1 s2,
  output_canonical o = true -> output_canonical o' = true -> wf_store ty s -> wf_s ty c ->
  exec (denote o) ty fuel s c = Some (Ok s1) -> exec (denote o') ty fuel s c = Some (Ok s2) ->
  forall x, s1 x = s2 x.
Proof. exact c66_policies_agree. Qed.
Print Assumptions C66_policies_agree.

(** C67: if every rational that occurs has, in lowest terms, parts of magnitude
    at most [B], and 2 B B fits the types involved, the program does run to its
    end without undefined behaviour, with the exact result. *)
Theorem C67_total : forall o B ty fuel s q c q',
  output_canonical o = true -> wf_store ty s -> represents s q -> wf_s ty c ->
  room_s B ty c -> run_small B fuel q c = Some q' ->
  run fuel q c = Some q' /\
  exists s', exec (denote o) ty fuel s c = Some (Ok s') /\ represents s' q' /\ wf_store ty s'.
Proof. exact c67_total. Qed.
Print Assumptions C67_total.

(** C67: so the loop [sum_program], which adds up 1 / (k (k + 1)) for k = 1 .. N,
    ends with N / (N + 1), for every N within the bound. *)
Theorem C67_sum_program : forall o t N s,
  output_canonical o = true -> signed_rep t -> 0 <= N ->
  2 * ((N + 1) * (N + 2)) * ((N + 1) * (N + 2)) <= rmax t ->
  wf_store (fun _ => t) s -> s 0%nat = mkRaw N 1 ->
  exists n s', exec (denote o) (fun _ => t) n s sum_program = Some (Ok s')
               /\ s' 2%nat = mkRaw N (N + 1).
Proof. exact c67_sum_program. Qed.
Print Assumptions C67_sum_program.

(** A memory with 5 in variable 0, and the loop run in it under two policies. *)
Example C66_nonvacuous :
  let s := fun x => if Nat.eqb x 0 then mkRaw 5 1 else mkRaw 0 1 in
  output_canonical defaults = true /\ output_canonical fast_reduced_io = true /\
  wf_store (fun _ => int64) s /\ wf_s (fun _ => int64) sum_program /\
  match exec (denote defaults) (fun _ => int64) 10 s sum_program,
        exec (denote fast_reduced_io) (fun _ => int64) 10 s sum_program with
  | Some (Ok s1), Some (Ok s2) => s1 2%nat = mkRaw 5 6 /\ s2 2%nat = mkRaw 5 6
  | _, _ => False
  end.
Proof.
  cbn zeta. split; [reflexivity|]. split; [reflexivity|]. split.
  - intros [|x]; cbn; (split; [split; [unfold wf_rep; cbn; lia|reflexivity]|]);
      (split; [split; reflexivity|]); right; cbn; split; try reflexivity; lia.
  - split; [|vm_compute; auto]. cbn. unfold signed_rep, wf_rep; cbn. repeat split; auto; lia.
Qed.

(** Aliasing: x = 2/3; x *= x; x += x.num(); then x -= x.trunc() and a division
    by zero give 4/9, 40/9, 4/9 and undefined. *)
Example C66_aliasing :
  let c := SSeq (SAssign 0 (ELit int64 (mkRaw 2 3)))
          (SSeq (SOpAssign Multiplies 0 (EVar 0))
          (SSeq (SOpAssignInt Plus 0 (INum 0))
          (SSeq (SOpAssignInt Minus 0 (ITrunc 0))
                (SAssign 1 (EBin Divides (EVar 0) (EBin Minus (EVar 0) (EVar 0))))))) in
  wf_s (fun _ => int64) c /\
  match exec (denote defaults) (fun _ => int64) 10 (fun _ => mkRaw 0 1) c,
        run 10 (fun _ => Some 0%Q) c with
  | Some (Ok s), Some q => s 0%nat = mkRaw 4 9 /\ s 1%nat = mkRaw 0 0 /\ q 1%nat = None
  | _, _ => False
  end.
Proof.
  cbn zeta. split; [|vm_compute; auto]. cbn. unfold signed_rep, wf_rep, wf_raw, canonical; cbn.
  repeat split; auto; try lia.
Qed.

Example C67_nonvacuous :
  room_s 42 (fun _ => int64) sum_program /\
  match run_small 42 10 (fun x => if Nat.eqb x 0 then Some (inject_Z 5) else None) sum_program with
  | Some q => same_value (q 2%nat) (Some (5 # 6))
  | None => False
  end /\
  2 * ((100 + 1) * (100 + 2)) * ((100 + 1) * (100 + 2)) <= rmax int32.
Proof.
  cbn. unfold room. cbn. repeat split; try lia.
Qed.
