(** Property theorems: expressions that contain assignments.

    Each is closed by the lemma of the same name in Effects_claims.v. *)

From Coq Require Import ZArith List Bool Lia.
From Verif Require Import Machine Raw Ops Fraction Fmath Program Effects Effects_spec Effects_proofs.
Open Scope Z_scope.
From Verif Require Import Effects_claims.

(** C116: if no operand of an operator writes a variable that the other one reads or
    writes, then all orders of evaluation end with the same result and the same contents
    of all variables, or all of them are undefined. *)
Theorem C116_order : forall p ty s e c d, race_free e ->
  steps p ty (Run s e) c -> final c -> steps p ty (Run s e) d -> final d -> same_config c d.
Proof. exact c116_order. Qed.
Print Assumptions C116_order.

(** C116: an expression that compiles is evaluated in at most as many steps as it has
    operators, and an execution that is not over can be continued. *)
Theorem C116_step : forall p ty s e s' e', step p ty s e (Run s' e') -> typ ty e <> None ->
  typ ty e' = typ ty e /\ (size e' < size e)%nat.
Proof. exact c116_step. Qed.
Print Assumptions C116_step.

Theorem C116_progress : forall p ty s e, typ ty e <> None -> is_value e = true \/ exists c, step p ty s e c.
Proof. exact c116_progress. Qed.
Print Assumptions C116_progress.

(** C116: expressions without assignments have the value of the sequential model, in
    every order, and change nothing. *)
Theorem C116_pure : forall p ty s e c, steps p ty (Run s (pure_term ty e)) c -> final c ->
  match c with
  | Run s' w => (forall x, s' x = s x) /\ exists v, feval p ty s e = Ok v /\ load ty s' w = Some (AFrac (ftype ty e) v)
  | Undefined => exists u, feval p ty s e = UB u
  end.
Proof. exact c116_pure. Qed.
Print Assumptions C116_pure.

(** C116: x op= e, x op= i and x = e do what the statements of the sequential model do, and
    their result is x itself. *)
Theorem C116_compound : forall p ty s op x e c,
  steps p ty (Run s (Set_ (Some op) (Var x) (pure_term ty e))) c -> final c ->
  match c, exec p ty 1 s (SOpAssign op x e) with
  | Run s' w, Some (Ok s1) => w = Var x /\ forall y, s' y = s1 y
  | Undefined, Some (UB _) => True
  | _, _ => False
  end.
Proof. exact c116_compound. Qed.
Print Assumptions C116_compound.

Theorem C116_compound_int : forall p ty s op x i c,
  steps p ty (Run s (Set_ (Some op) (Var x) (int_term i))) c -> final c ->
  match c, exec p ty 1 s (SOpAssignInt op x i) with
  | Run s' w, Some (Ok s1) => w = Var x /\ forall y, s' y = s1 y
  | Undefined, Some (UB _) => True
  | _, _ => False
  end.
Proof. exact c116_compound_int. Qed.
Print Assumptions C116_compound_int.

Theorem C116_assign : forall p ty s x e c,
  steps p ty (Run s (Set_ None (Var x) (One (FMake (ty x)) (pure_term ty e)))) c -> final c ->
  match c, exec p ty 1 s (SAssign x e) with
  | Run s' w, Some (Ok s1) => w = Var x /\ forall y, s' y = s1 y
  | Undefined, Some (UB _) => True
  | _, _ => False
  end.
Proof. exact c116_assign. Qed.
Print Assumptions C116_assign.

(** C116: a variable next to an assignment to it, as in x - (x += y), is read after the
    assignment in every order, unlike an int, for which that is undefined. *)
Theorem C116_shared : forall p ty op x a s s' c, race_free a -> steps p ty (Run s a) (Run s' (Var x)) ->
  (steps p ty (Run s (Bin op (Var x) a)) c \/ steps p ty (Run s (Bin op a (Var x))) c) -> final c ->
  match c, f_arith p (ty x) (ty x) op (RR (s' x) (s' x)) with
  | Run s1 w, Ok v => w = Tmp (common_rep (ty x) (ty x)) v /\ forall y, s1 y = s' y
  | Undefined, UB _ => True
  | _, _ => False
  end.
Proof. exact c116_shared. Qed.
Print Assumptions C116_shared.

(** C116: an assignment to the result of another one, as in (x += y) *= z, does what the
    two statements do in turn, even if z is x. *)
Theorem C116_chain : forall p ty o1 o2 x a b s s1 c d, race_free a -> is_value b = true ->
  steps p ty (Run s (Set_ o1 (Var x) a)) (Run s1 (Var x)) ->
  steps p ty (Run s1 (Set_ o2 (Var x) b)) c -> final c ->
  steps p ty (Run s (Set_ o2 (Set_ o1 (Var x) a) b)) d -> final d -> same_config c d.
Proof. exact c116_chain. Qed.
Print Assumptions C116_chain.

(** C116: so (x += 1) += x doubles x + 1; for an int x it adds 1 to twice x. *)
Theorem C116_int_differs : forall ty s c, ty 0%nat = int32 -> s 0%nat = mkRaw 3 1 ->
  steps (denote defaults) ty (Run s (Set_ (Some Plus) (Set_ (Some Plus) (Var 0) (Int int32 1)) (Var 0))) c -> final c ->
  exists s', c = Run s' (Var 0) /\ s' 0%nat = mkRaw 8 1 /\ 8 <> (3 + 1) + 3.
Proof. exact c116_int_differs. Qed.
Print Assumptions C116_int_differs.

(** C116: without the condition of the first theorem the order can matter: in
    (x += 1) * -x the second operand may be read before or after the assignment. *)
Theorem C116_order_refuted : exists ty s e c d, typ ty e <> None /\
  steps (denote defaults) ty (Run s e) c /\ final c /\ steps (denote defaults) ty (Run s e) d /\ final d /\ ~ same_config c d.
Proof. exact c116_order_refuted. Qed.
Print Assumptions C116_order_refuted.

(** (x += y) * (z -= 1) - x.num() over variables 0, 1 and 2 is free of races. *)
Example C116_nonvacuous :
  let e := Bin Minus (Bin Multiplies (Set_ (Some Plus) (Var 0) (Var 1)) (Set_ (Some Minus) (Var 2) (Int int32 1))) (One FNum (Var 0)) in
  let s := fun x : nat => mkRaw (Z.of_nat x + 1) 2 in
  race_free e /\ typ (fun _ => int32) e = Some (EF int32 false) /\
  exists s', steps (denote defaults) (fun _ => int32) (Run s e) (Run s' (Tmp int32 (mkRaw (-9) 4))) /\
    s' 0%nat = mkRaw 3 2 /\ s' 1%nat = mkRaw 2 2 /\ s' 2%nat = mkRaw 1 2.
Proof.
  cbv zeta. split; [|split; [reflexivity|]].
  - cbn. repeat split; auto; try lia; try tauto; intros; intuition lia.
  - match goal with |- exists s', steps _ _ (Run ?s ?e) _ /\ _ =>
      exists (match ev (denote defaults) (fun _ => int32) s e with Run s' _ => s' | Undefined => s end);
      split; [|repeat match goal with |- _ /\ _ => split end; vm_compute; reflexivity];
      match goal with |- steps _ _ _ ?c => replace c with (ev (denote defaults) (fun _ => int32) s e) by (vm_compute; reflexivity) end
    end.
    apply ev_steps. discriminate.
Qed.
