(** Property theorems: Euclid's algorithm on fractions.

    Each is closed by the lemma of the same name in Euclid_claims.v. *)

From Coq Require Import ZArith QArith Bool Lia.
From Verif Require Import Machine Raw Ops Spec Fraction Mixed_spec Defined_spec Program Program_spec ProgDef_spec Euclid_spec.
From Verif Require Import Euclid_proofs.
Open Scope Z_scope.
From Verif Require Import Euclid_claims.

(** C96: while (y != 0) { tmp = x % y; x = y; y = tmp; } on defined fractions always
    comes to an end, under every policy that returns lowest terms. *)
Theorem C96_ends : forall o t s x y, output_canonical o = true -> wf_store (fun _ => t) s ->
  value (s 0%nat) = Some x -> value (s 1%nat) = Some y ->
  exists N, forall fuel, (N <= fuel)%nat -> exec (denote o) (fun _ => t) fuel s euclid <> None.
Proof. exact c96_ends. Qed.
Print Assumptions C96_ends.

(** C96: and if it meets no undefined behaviour, x is then a greatest common divisor
    of the rationals it started from, and y is 0/1. *)
Theorem C96_result : forall o t s x y fuel s', output_canonical o = true -> wf_store (fun _ => t) s ->
  value (s 0%nat) = Some x -> value (s 1%nat) = Some y -> exec (denote o) (fun _ => t) fuel s euclid = Some (Ok s') ->
  exists g, value (s' 0%nat) = Some g /\ is_gcd x y g /\ s' 1%nat = mkRaw 0 1.
Proof. exact c96_result. Qed.
Print Assumptions C96_result.

(** C96: under the default policy it meets none exactly if y is 0, or both fractions
    can be written over their least common denominator (and are not among the few
    with the least integer in them). *)
Theorem C96_defined : forall t s x y, wf_store (fun _ => t) s -> value (s 0%nat) = Some x -> value (s 1%nat) = Some y ->
  (exists fuel s', exec (denote defaults) (fun _ => t) fuel s euclid = Some (Ok s')) <-> euclid_fits (rmax t) x y.
Proof. exact c96_defined. Qed.
Print Assumptions C96_defined.

(** 10/21 and -4/9 have the divisor 2/63; 1/65536 and 1/65537 have no common
    denominator in 32 bits. *)
Example c96_cases :
  let s a b := fun x : nat => match x with O => a | S O => b | _ => mkRaw 0 1 end in
  let final a b := match exec (denote defaults) (fun _ => int32) 60 (s a b) euclid with
                   | Some (Ok m) => Some (Ok (m 0%nat)) | Some (UB u) => Some (UB u) | None => None end in
  wf_store (fun _ => int32) (s (mkRaw 10 21) (mkRaw (-4) 9)) /\
  euclid_fits (rmax int32) (10 # 21) (-4 # 9) /\
  final (mkRaw 10 21) (mkRaw (-4) 9) = Some (Ok (mkRaw 2 63)) /\
  final (mkRaw (-3) 4) (mkRaw 0 1) = Some (Ok (mkRaw (-3) 4)) /\
  ~ euclid_fits (rmax int32) (1 # 65536) (1 # 65537) /\
  final (mkRaw 1 65536) (mkRaw 1 65537) = Some (UB LibPrecond) /\
  final (mkRaw 2147483646 1) (mkRaw 1836311903 1) = Some (Ok (mkRaw 1 1)).
Proof.
  cbv zeta. split.
  { intros [|[|x]]; (split; [split; [intros H; discriminate H|reflexivity]|]); (split; [split; reflexivity|]); right; split; reflexivity. }
  split. { right. vm_compute. repeat split; try (intros H; discriminate H); intros [H _]; discriminate H. }
  split; [vm_compute; reflexivity|]. split; [vm_compute; reflexivity|]. split.
  { intros [H|(_ & _ & (H & _) & _)]; vm_compute in H; [discriminate H|apply H; reflexivity]. }
  split; vm_compute; reflexivity.
Qed.
