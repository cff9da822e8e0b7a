(** Property theorems: when a client program is free of undefined behaviour.

    Each is closed by the lemma of the same name in ProgDef_claims.v. *)

From Coq Require Import ZArith QArith Qreduction Bool Lia.
From Verif Require Import Machine Raw Ops Spec Fraction Fmath Mixed_spec Defined_spec Program Program_spec ProgDef_spec.
From Verif Require Import Machine_proofs Value_proofs Program_proofs ProgDef_proofs.
Open Scope Z_scope.
From Verif Require Import ProgDef_claims.

(** C93: an expression of any shape and size, over variables in lowest terms and
    signed types of any widths, mixing fractions and integers, is evaluated
    without undefined behaviour exactly when, over the rationals, every operation
    in it satisfies its own condition ([fdefined]). *)
Theorem C93_expression : forall ty s q e, wf_store ty s -> represents s q -> wf_f ty e ->
  (exists v, feval (denote defaults) ty s e = Ok v) <-> fdefined ty q e.
Proof. exact c93_expression. Qed.
Print Assumptions C93_expression.

(** 1/6 + x * x at x = -2/3, and 1/6 + x * x at x = 1/46341 in 32 bits, which
    overflows although no operand does. *)
Example c93_expression_cases :
  let e := EBin Plus (ELit int32 (mkRaw 1 6)) (EBin Multiplies (EVar 0) (EVar 0)) in
  let ty := fun _ => int32 in
  let s := fun n d (_ : nat) => mkRaw n d in
  let q := fun v (_ : nat) => Some v : option Q in
  wf_f ty e /\
  (wf_store ty (s (-2) 3) /\ represents (s (-2) 3) (q (-2 # 3)) /\ fdefined ty (q (-2 # 3)) e /\
   feval (denote defaults) ty (s (-2) 3) e = Ok (mkRaw 11 18)) /\
  (wf_store ty (s 1 46341) /\ represents (s 1 46341) (q (1 # 46341)) /\ ~ fdefined ty (q (1 # 46341)) e /\
   feval (denote defaults) ty (s 1 46341) e = UB Overflow).
Proof.
  assert (WF : wf_f (fun _ => int32) (EBin Plus (ELit int32 (mkRaw 1 6)) (EBin Multiplies (EVar 0) (EVar 0)))).
  { cbn. repeat split; try reflexivity; try (intros H; discriminate H). right; split; reflexivity. }
  assert (W : forall n d, in_rep int32 n = true -> in_rep int32 d = true -> canonical (mkRaw n d) ->
    wf_store (fun _ => int32) (fun _ => mkRaw n d)).
  { intros n d A B C x. repeat split; auto; try reflexivity; try (intros H; discriminate H). }
  assert (W1 := W (-2) 3 eq_refl eq_refl (or_intror (conj eq_refl eq_refl))).
  assert (W2 := W 1 46341 eq_refl eq_refl (or_intror (conj eq_refl eq_refl))).
  assert (R1 : represents (fun _ => mkRaw (-2) 3) (fun _ => Some (-2 # 3))) by (intros x; reflexivity).
  assert (R2 : represents (fun _ => mkRaw 1 46341) (fun _ => Some (1 # 46341))) by (intros x; reflexivity).
  split; [exact WF|]. split.
  - split; [exact W1|]. split; [exact R1|]. split; [|vm_compute; reflexivity].
    apply (feval_ok _ _ _ _ W1 R1 WF). exists (mkRaw 11 18). vm_compute. reflexivity.
  - split; [exact W2|]. split; [exact R2|]. split; [|vm_compute; reflexivity].
    intros D. apply (feval_ok _ _ _ _ W2 R2 WF) in D as [v D]. vm_compute in D. discriminate D.
Qed.

(** C93: and likewise a condition; a right operand of && or || that is not
    evaluated need not satisfy anything. *)
Theorem C93_condition : forall ty s q b, wf_store ty s -> represents s q -> wf_b ty b ->
  (exists v, beval (denote defaults) ty s b = Ok v) <-> bdefined ty q b.
Proof. exact c93_condition. Qed.
Print Assumptions C93_condition.

(** x != 0 && 1 / x + x < 3: the second half is not evaluated at x = 0. *)
Example c93_condition_cases :
  let b := BAnd (BCmpInt Ne (EVar 0) (IConst int32 0))
    (BCmpInt Lt (EBin Plus (EIntBin Divides (IConst int32 1) (EVar 0)) (EVar 0)) (IConst int32 3)) in
  let ty := fun _ => int32 in
  let run n d := beval (denote defaults) ty (fun _ => mkRaw n d) b in
  wf_b ty b /\ run 0 1 = Ok false /\ run 2 1 = Ok true /\ run 1 4 = Ok false /\ run 46341 46340 = UB Overflow /\
  bmeaning (fun _ => Some 0%Q) (BCmpInt Ne (EVar 0) (IConst int32 0)) = false.
Proof. vm_compute. repeat split; auto; intros H; discriminate H. Qed.

(** C93: a program with loops, branches and compound assignments, started in a
    memory that represents the rationals [q], ends within [fuel] nested steps
    without undefined behaviour exactly when the program over the rationals does
    and every operation it performs on the way satisfies its own condition
    ([run_defined]). *)
Theorem C93_program : forall ty fuel s q c, wf_store ty s -> represents s q -> wf_s ty c ->
  (exists s', exec (denote defaults) ty fuel s c = Some (Ok s')) <-> run_defined ty fuel q c.
Proof. exact c93_program. Qed.
Print Assumptions C93_program.

(** [sum_program] for N = 5, and the loop that adds 1 to the greatest integer. *)
Example c93_program_cases :
  let ty := fun _ => int32 in
  let s z := fun x => if Nat.eqb x 0 then mkRaw z 1 else mkRaw 0 0 in
  let q z := fun x => if Nat.eqb x 0 then Some (inject_Z z) else None in
  let c := SWhile (BCmpInt Ge (EVar 0) (IConst int32 0)) (SOpAssignInt Plus 0 (IConst int32 1)) in
  (wf_store ty (s 5) /\ represents (s 5) (q 5) /\ wf_s ty sum_program /\ run_defined ty 10 (q 5) sum_program) /\
  (wf_store ty (s (rmax int32)) /\ represents (s (rmax int32)) (q (rmax int32)) /\ wf_s ty c /\
   forall fuel, ~ run_defined ty fuel (q (rmax int32)) c).
Proof.
  cbv zeta.
  assert (W : forall z, in_rep int32 z = true ->
    wf_store (fun _ => int32) (fun x => if Nat.eqb x 0 then mkRaw z 1 else mkRaw 0 0) /\
    represents (fun x => if Nat.eqb x 0 then mkRaw z 1 else mkRaw 0 0) (fun x => if Nat.eqb x 0 then Some (inject_Z z) else None)).
  { intros z F. split; intros [|x]; cbn.
    - repeat split; auto; try (intros H; discriminate H). right. cbn. split; [lia|apply Z.gcd_1_r].
    - repeat split; auto; try (intros H; discriminate H). left. cbn. auto.
    - unfold value; cbn. field.
    - exact I. }
  destruct (W 5 eq_refl) as [W1 R1]. destruct (W (rmax int32) eq_refl) as [W2 R2].
  assert (F1 : wf_s (fun _ => int32) sum_program).
  { cbn. repeat split; auto; try (intros H; discriminate H); right; split; reflexivity. }
  assert (F2 : wf_s (fun _ => int32) (SWhile (BCmpInt Ge (EVar 0) (IConst int32 0)) (SOpAssignInt Plus 0 (IConst int32 1)))).
  { cbn. repeat split; auto; intros H; discriminate H. }
  split.
  - split; [exact W1|]. split; [exact R1|]. split; [exact F1|]. apply (exec_ok _ _ _ _ _ W1 R1 F1).
    apply is_ok_exists. vm_compute. reflexivity.
  - split; [exact W2|]. split; [exact R2|]. split; [exact F2|]. intros fuel D.
    apply (exec_ok _ _ _ _ _ W2 R2 F2) in D as [s' D]. destruct fuel as [|[|fuel]]; vm_compute in D; discriminate D.
Qed.

(** C93: one operator between two fractions in lowest terms, either of which may
    be the undefined fraction.  So the undefined fraction times or divided by a
    fraction is always defined behaviour, and plus, minus and the remainder never. *)
Theorem C93_operator : forall t op x y a b, signed_rep t ->
  wf_raw t x -> wf_raw t y -> canonical x -> canonical y ->
  same_value (value x) a -> same_value (value y) b ->
  (exists r, p_arith (denote defaults) t op (RR x y) = Ok r) <-> arith_defined (rmax t) op a b.
Proof. exact c93_operator. Qed.
Print Assumptions C93_operator.

Example c93_operator_cases :
  (forall op, (exists r, p_arith (denote defaults) int32 op (RR (mkRaw 0 0) (mkRaw 1 2)) = Ok r) <-> op = Multiplies \/ op = Divides) /\
  p_arith (denote defaults) int32 Multiplies (RR (mkRaw 0 0) (mkRaw (-2147483648) 1)) = UB LibPrecond.
Proof.
  split; [|reflexivity]. intros op. split.
  - intros [r H]; destruct op; auto; vm_compute in H; discriminate H.
  - intros [-> | ->]; eexists; reflexivity.
Qed.
