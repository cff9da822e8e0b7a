(** Proofs of the statements in Props_Effects.v. *)

From Coq Require Import ZArith List Bool Lia.
From Verif Require Import Machine Raw Ops Fraction Fmath Program Effects Effects_spec Effects_proofs.
Open Scope Z_scope.

Lemma c116_order : forall p ty s e c d, race_free e ->
  steps p ty (Run s e) c -> final c -> steps p ty (Run s e) d -> final d -> same_config c d.
Proof. exact order_irrelevant. Qed.

Lemma c116_step : forall p ty s e s' e', step p ty s e (Run s' e') -> typ ty e <> None ->
  typ ty e' = typ ty e /\ (size e' < size e)%nat.
Proof.
  intros p ty s e s' e' H T. split; [exact (step_typ _ _ _ _ _ H T)|].
  pose proof (step_uses _ _ _ _ _ H) as U. apply U.
Qed.

Lemma c116_progress : forall p ty s e, typ ty e <> None -> is_value e = true \/ exists c, step p ty s e c.
Proof. intros p ty s e. exact (progress p ty e s). Qed.

Lemma c116_pure : forall p ty s e c, steps p ty (Run s (pure_term ty e)) c -> final c ->
  match c with
  | Run s' w => (forall x, s' x = s x) /\ exists v, feval p ty s e = Ok v /\ load ty s' w = Some (AFrac (ftype ty e) v)
  | Undefined => exists u, feval p ty s e = UB u
  end.
Proof. exact pure_executions. Qed.

Lemma c116_compound : forall p ty s op x e c,
  steps p ty (Run s (Set_ (Some op) (Var x) (pure_term ty e))) c -> final c ->
  match c, exec p ty 1 s (SOpAssign op x e) with
  | Run s' w, Some (Ok s1) => w = Var x /\ forall y, s' y = s1 y
  | Undefined, Some (UB _) => True
  | _, _ => False
  end.
Proof.
  intros p ty s op x e c H F.
  assert (R : race_free (Set_ (Some op) (Var x) (pure_term ty e))) by (split; [exact I|apply pure_term_race_free]).
  pose proof (steps_ev _ _ _ _ H R F) as E. cbn [then_] in E. rewrite opassign_ev in E. cbn [exec].
  destruct (bind (feval p ty s e) _) as [s1|u]; destruct c as [s' w|]; try contradiction; auto.
  destruct E as [<- E]. split; auto.
Qed.

Lemma c116_compound_int : forall p ty s op x i c,
  steps p ty (Run s (Set_ (Some op) (Var x) (int_term i))) c -> final c ->
  match c, exec p ty 1 s (SOpAssignInt op x i) with
  | Run s' w, Some (Ok s1) => w = Var x /\ forall y, s' y = s1 y
  | Undefined, Some (UB _) => True
  | _, _ => False
  end.
Proof.
  intros p ty s op x i c H F.
  assert (R : race_free (Set_ (Some op) (Var x) (int_term i))) by (split; [exact I|apply int_term_race_free]).
  pose proof (steps_ev _ _ _ _ H R F) as E. cbn [then_] in E. rewrite opassign_int_ev in E. cbn [exec].
  destruct (bind (ieval ty s i) _) as [s1|u]; destruct c as [s' w|]; try contradiction; auto.
  destruct E as [<- E]. split; auto.
Qed.

Lemma c116_assign : forall p ty s x e c,
  steps p ty (Run s (Set_ None (Var x) (One (FMake (ty x)) (pure_term ty e)))) c -> final c ->
  match c, exec p ty 1 s (SAssign x e) with
  | Run s' w, Some (Ok s1) => w = Var x /\ forall y, s' y = s1 y
  | Undefined, Some (UB _) => True
  | _, _ => False
  end.
Proof.
  intros p ty s x e c H F.
  assert (R : race_free (Set_ None (Var x) (One (FMake (ty x)) (pure_term ty e)))) by (split; [exact I|apply pure_term_race_free]).
  pose proof (steps_ev _ _ _ _ H R F) as E. cbn [then_] in E. rewrite assign_ev in E. cbn [exec].
  destruct (bind (feval p ty s e) _) as [s1|u]; destruct c as [s' w|]; try contradiction; auto.
  destruct E as [<- E]. split; auto.
Qed.

Lemma c116_shared : forall p ty op x a s s' c, race_free a -> steps p ty (Run s a) (Run s' (Var x)) ->
  (steps p ty (Run s (Bin op (Var x) a)) c \/ steps p ty (Run s (Bin op a (Var x))) c) -> final c ->
  match c, f_arith p (ty x) (ty x) op (RR (s' x) (s' x)) with
  | Run s1 w, Ok v => w = Tmp (common_rep (ty x) (ty x)) v /\ forall y, s1 y = s' y
  | Undefined, UB _ => True
  | _, _ => False
  end.
Proof.
  intros p ty op x a s s' c Fa Ha Hc Fc. pose proof (shared_ev p ty op x a s s' c Fa Ha Hc Fc) as E.
  destruct (f_arith p (ty x) (ty x) op (RR (s' x) (s' x))); destruct c; cbn in *; auto.
Qed.

Lemma c116_chain : forall p ty o1 o2 x a b s s1 c d, race_free a -> is_value b = true ->
  steps p ty (Run s (Set_ o1 (Var x) a)) (Run s1 (Var x)) ->
  steps p ty (Run s1 (Set_ o2 (Var x) b)) c -> final c ->
  steps p ty (Run s (Set_ o2 (Set_ o1 (Var x) a) b)) d -> final d -> same_config c d.
Proof. exact chain_ev. Qed.

Lemma c116_int_differs : forall ty s c, ty 0%nat = int32 -> s 0%nat = mkRaw 3 1 ->
  steps (denote defaults) ty (Run s (Set_ (Some Plus) (Set_ (Some Plus) (Var 0) (Int int32 1)) (Var 0))) c -> final c ->
  exists s', c = Run s' (Var 0) /\ s' 0%nat = mkRaw 8 1 /\ 8 <> (3 + 1) + 3.
Proof.
  intros ty s c T S H F.
  pose proof (steps_ev _ _ _ _ H ltac:(cbn; auto) F) as E. cbn [then_] in E.
  assert (E1 : ev (denote defaults) ty s (Set_ (Some Plus) (Set_ (Some Plus) (Var 0) (Int int32 1)) (Var 0)) =
    Run (write (write s 0%nat (mkRaw 4 1)) 0%nat (mkRaw 8 1)) (Var 0)).
  { cbn [ev then_]. unfold run_call, call, call_set. cbn [load]. rewrite T, S.
    replace (f_assign (denote defaults) int32 Plus {| num := 3; den := 1 |} (IntOperand int32 1)) with (Ok (mkRaw 4 1)) by (vm_compute; reflexivity).
    cbn [assigned then_ load]. rewrite T. change (write s 0%nat {| num := 4; den := 1 |} 0%nat) with (mkRaw 4 1).
    replace (f_assign (denote defaults) int32 Plus {| num := 4; den := 1 |} (FracOperand int32 {| num := 4; den := 1 |})) with (Ok (mkRaw 8 1)) by (vm_compute; reflexivity).
    reflexivity. }
  rewrite E1 in E. destruct c as [s' w|]; [|contradiction]. destruct E as [<- E]. exists s'. split; auto.
  rewrite <- E. split; [reflexivity|lia].
Qed.

Lemma c116_order_refuted : exists ty s e c d, typ ty e <> None /\
  steps (denote defaults) ty (Run s e) c /\ final c /\ steps (denote defaults) ty (Run s e) d /\ final d /\ ~ same_config c d.
Proof.
  pose (s := fun _ : nat => mkRaw 1 1).
  exists (fun _ => int32), s, (Bin Multiplies (Set_ (Some Plus) (Var 0) (Int int32 1)) (One FNeg (Var 0))),
    (Run (write s 0%nat (mkRaw 2 1)) (Tmp int32 (mkRaw (-2) 1))), (Run (write s 0%nat (mkRaw 2 1)) (Tmp int32 (mkRaw (-4) 1))).
  split; [discriminate|]. split; [|split; [reflexivity|split; [|split; [reflexivity|intros [E _]; discriminate]]]].
  - eapply steps_step; [apply step_right, step_call|].
    + instantiate (1 := Run s (Tmp int32 (mkRaw (-1) 1))). vm_compute. reflexivity.
    + cbn [plug]. match goal with |- steps _ _ _ ?c => replace c with (ev (denote defaults) (fun _ => int32) s
        (Bin Multiplies (Set_ (Some Plus) (Var 0) (Int int32 1)) (Tmp int32 (mkRaw (-1) 1)))) by (vm_compute; reflexivity) end.
      apply ev_steps. discriminate.
  - match goal with |- steps _ _ (Run _ ?e) ?c => replace c with (ev (denote defaults) (fun _ => int32) s e) by (vm_compute; reflexivity) end.
    apply ev_steps. discriminate.
Qed.

