(** Lemmas about overload resolution. *)

From Coq Require Import List Bool Arith ZArith Lia.
From Verif Require Import Machine Ops Overload Overload_spec.
Import ListNotations.

Lemma rep_eqb_same : forall t, rep_eqb t t = true.
Proof. intros [b z]. unfold rep_eqb. cbn. now rewrite eqb_reflx, Z.eqb_refl. Qed.

Lemma cty_eqb_same : forall t, cty_eqb t t = true.
Proof.
  induction t; cbn; auto using rep_eqb_same, Nat.eqb_refl, eqb_reflx.
  - now rewrite IHt1, IHt2.
  - now rewrite IHt1, IHt2, IHt3.
  - now rewrite IHt1, IHt2.
Qed.

Lemma rep_eqb_true : forall t u, rep_eqb t u = true -> t = u.
Proof.
  intros [b z] [c y]. unfold rep_eqb. cbn. intros H. apply andb_prop in H. destruct H as [H1 H2].
  apply eqb_prop in H1. apply Z.eqb_eq in H2. now subst.
Qed.

Lemma cty_eqb_true : forall t u, cty_eqb t u = true -> t = u.
Proof.
  induction t; destruct u; cbn; intros H; try discriminate; auto.
  - now rewrite (rep_eqb_true _ _ H).
  - now rewrite (proj1 (Nat.eqb_eq _ _) H).
  - apply andb_prop in H. destruct H as [H1 H2]. now rewrite (IHt1 _ H1), (IHt2 _ H2).
  - apply andb_prop in H. destruct H as [H H3]. apply andb_prop in H. destruct H as [H1 H2].
    now rewrite (IHt1 _ H1), (IHt2 _ H2), (IHt3 _ H3).
  - apply andb_prop in H. destruct H as [H1 H2]. now rewrite (IHt1 _ H1), (IHt2 _ H2).
  - now rewrite (eqb_prop _ _ H).
  - now rewrite (proj1 (Nat.eqb_eq _ _) H).
Qed.

Lemma cty_eqb_differ : forall t u, t <> u -> cty_eqb t u = false.
Proof. intros t u H. destruct (cty_eqb t u) eqn:E; auto. now apply cty_eqb_true in E. Qed.

Ltac view :=
  repeat match goal with
  | |- context [viable ?w ?t ?u ?m ?c] =>
      let v := eval cbv -[common convertible cty_eqb negb implb andb] in (viable w t u m c) in
      change (viable w t u m c) with v
  end.
Ltac settle :=
  repeat (rewrite ?cty_eqb_same; cbv iota beta delta [negb implb andb];
    match goal with
    | H : cty_eqb ?a ?b = _ |- context [cty_eqb ?a ?b] => rewrite H
    | H : common ?w ?a ?b = _ |- context [common ?w ?a ?b] => rewrite H
    | H : convertible ?w ?a ?b = _ |- context [convertible ?w ?a ?b] => rewrite H
    | |- context [match common ?w ?a ?b with _ => _ end] => destruct (common w a b) eqn:?
    | |- context [convertible ?w ?a ?b] => destruct (convertible w a b) eqn:?
    | |- context [cty_eqb ?a ?b] => destruct (cty_eqb a b) eqn:?
    end).
Ltac resolved :=
  unfold resolve, candidates; try destruct (rewrites _);
  unfold choose, plain_candidates, declared, arithmetic, compound, comparison, mixed_plus, literal_divides, exchange;
  cbn [app map dname first second modifies cond result];
  unfold viables; cbn [combine seq length flat_map snd];
  view; settle; vm_compute; try reflexivity.

(** Two fractions of one policy. *)
Lemma same_arith : forall w op a b o c m, common w a b = Some c ->
  resolve w (OArith op) (Frac a o) (Frac b o) m = Call FracFrac 0 (Frac c o).
Proof. intros. destruct op; resolved. Qed.

Lemma same_compare : forall w op a b o m, common w a b <> None ->
  resolve w (OCompare op) (Frac a o) (Frac b o) m = Call FracFrac 0 Bool.
Proof. intros w op a b o m H. destruct (common w a b) eqn:E; [|easy]. destruct op; resolved. Qed.

Lemma same_assign : forall w op a b o, convertible w b a = true ->
  resolve w (OAssign op) (Frac a o) (Frac b o) true = Call FracFrac 0 (Frac a o).
Proof. intros. resolved. Qed.

(** Two fractions of different policies. *)
Lemma differ_arith : forall w op a b o o' m, o <> o' ->
  resolve w (OArith op) (Frac a o) (Frac b o') m = Call Deleted 0 Void.
Proof. intros w op a b o o' m H. apply cty_eqb_differ in H. destruct op; resolved. Qed.

Lemma differ_compare : forall w op a b o o' m, o <> o' ->
  resolve w (OCompare op) (Frac a o) (Frac b o') m = Call Deleted 0 Void.
Proof.
  intros w op a b o o' m H. pose proof (cty_eqb_differ _ _ H) as H1.
  pose proof (cty_eqb_differ _ _ (not_eq_sym H)) as H2. destruct op; resolved.
Qed.

Lemma differ_assign : forall w op a b o o' m, o <> o' ->
  resolve w (OAssign op) (Frac a o) (Frac b o') m =
  if m && convertible w (Frac b o') a then Call FracNum 0 (Frac a o) else Call Deleted 0 Void.
Proof. intros w op a b o o' m H. apply cty_eqb_differ in H. destruct m; resolved. Qed.

(** A fraction and a number. *)
Lemma num_right : forall w op a u o c m, common w a (Num u) = Some c ->
  resolve w (OArith op) (Frac a o) (Num u) m = Call FracNum 0 (Frac c o).
Proof. intros. destruct op; resolved. Qed.

Lemma num_left : forall w op a u o c m, common w (Num u) a = Some c ->
  resolve w (OArith op) (Num u) (Frac a o) m = Call NumFrac 0 (Frac c o).
Proof. intros. destruct op; resolved. Qed.

Lemma num_right_compare : forall w op a u o m, common w a (Num u) <> None ->
  resolve w (OCompare op) (Frac a o) (Num u) m = Call FracNum 0 Bool.
Proof. intros w op a u o m H. destruct (common w a (Num u)) eqn:E; [|easy]. destruct op; resolved. Qed.

Lemma num_left_compare : forall w op a u o m, common w (Num u) a <> None ->
  resolve w (OCompare op) (Num u) (Frac a o) m = Call NumFrac 0 Bool.
Proof. intros w op a u o m H. destruct (common w (Num u) a) eqn:E; [|easy]. destruct op; resolved. Qed.

Lemma num_assign : forall w op a u o, convertible w (Num u) a = true ->
  resolve w (OAssign op) (Frac a o) (Num u) true = Call FracNum 0 (Frac a o).
Proof. intros. resolved. Qed.

(** Mixed numbers. *)
Lemma mixed_mixed : forall w x f y g o c d m, common w x y = Some c -> common w f g = Some d ->
  resolve w (OArith Plus) (Mixed x f o) (Mixed y g o) m = Call MixedMixed 0 (Mixed c d o).
Proof. intros. resolved. Qed.

Lemma mixed_frac : forall w x f g o c d m, common w x g = Some c -> common w f g = Some d ->
  resolve w (OArith Plus) (Mixed x f o) (Frac g o) m = Call MixedFrac 0 (Mixed c d o) /\
  resolve w (OArith Plus) (Frac g o) (Mixed x f o) m = Call FracMixed 0 (Mixed c d o).
Proof. intros. split; resolved. Qed.

Lemma mixed_num : forall w x f u o c m, common w x (Num u) = Some c ->
  resolve w (OArith Plus) (Mixed x f o) (Num u) m = Call MixedNum 0 (Mixed c f o).
Proof. intros. resolved. Qed.

Lemma num_mixed : forall w x f u o c m, common w (Num u) x = Some c ->
  resolve w (OArith Plus) (Num u) (Mixed x f o) m = Call NumMixed 0 (Mixed c f o).
Proof. intros. resolved. Qed.

Lemma differ_mixed : forall w x f y g o o' m, o <> o' ->
  common w x (Mixed y g o') <> None -> common w (Mixed x f o) y <> None ->
  resolve w (OArith Plus) (Mixed x f o) (Mixed y g o') m = Ambiguous.
Proof.
  intros w x f y g o o' m H H1 H2. apply cty_eqb_differ in H.
  destruct (common w x (Mixed y g o')) eqn:E1; [|easy].
  destruct (common w (Mixed x f o) y) eqn:E2; [|easy]. resolved.
Qed.

Lemma differ_mixed_frac : forall w x f g o o' m, o <> o' ->
  common w g (Mixed x f o') <> None -> common w (Frac g o) x <> None ->
  common w (Mixed x f o') g <> None -> common w x (Frac g o) <> None ->
  resolve w (OArith Plus) (Frac g o) (Mixed x f o') m = Ambiguous /\
  resolve w (OArith Plus) (Mixed x f o') (Frac g o) m = Ambiguous.
Proof.
  intros w x f g o o' m H H1 H2 H3 H4. pose proof (cty_eqb_differ _ _ H) as N1.
  pose proof (cty_eqb_differ _ _ (not_eq_sym H)) as N2.
  destruct (common w g (Mixed x f o')) eqn:E1; [|easy].
  destruct (common w (Frac g o) x) eqn:E2; [|easy].
  destruct (common w (Mixed x f o') g) eqn:E3; [|easy].
  destruct (common w x (Frac g o)) eqn:E4; [|easy]. split; resolved.
Qed.

Lemma mixed_only_plus : forall w op x f o y g o' m, op <> OArith Plus ->
  resolve w op (Mixed x f o) (Mixed y g o') m = NoMatch.
Proof. intros w op x f o y g o' m H. destruct op as [op|op|op]; try destruct op; try easy; resolved. Qed.

(** No ambiguity. *)
Ltac clear_choice := resolved; try (let H := fresh in intros H; discriminate H).

Ltac clear_frac :=
  match goal with
  | H : rep_common ?w (Frac ?a ?o) (Frac ?b ?o') |- _ =>
      cbn in H; destruct (cty_eqb o o') eqn:?E;
      [apply cty_eqb_true in E; subst; destruct (common w a b) eqn:?; [|now elim H]|]
  | _ => idtac
  end.

Lemma arith_clear : forall w t u m, rep_common w t u -> choose w t u m (map (fun d => mkCand d 0) arithmetic) <> Ambiguous.
Proof. intros w t u m H. destruct t, u; clear_frac; clear_choice. Qed.

Lemma compound_clear : forall w t u m, choose w t u m (map (fun d => mkCand d 0) compound) <> Ambiguous.
Proof. intros w t u m. destruct m, t, u; clear_choice. Qed.

Lemma compare_clear : forall w t u m, rep_common w t u -> choose w t u m (map (fun d => mkCand d 0) comparison) <> Ambiguous.
Proof. intros w t u m H. destruct t, u; clear_frac; clear_choice. Qed.

Lemma equal_clear : forall w t u m, rep_common w t u ->
  choose w t u m (map (fun d => mkCand d 0) comparison ++ map (fun d => mkCand (exchange d) 2) comparison) <> Ambiguous.
Proof.
  intros w t u m H. destruct t, u; clear_frac;
  try match goal with E : cty_eqb ?a ?b = false |- _ => 
    assert (cty_eqb b a = false) by (apply cty_eqb_differ; intros ->; rewrite cty_eqb_same in E; discriminate) end; clear_choice.
Qed.

Lemma unequal_clear : forall w t u m, rep_common w t u ->
  choose w t u m (map (fun d => mkCand d 0) comparison ++ map (fun d => mkCand d 1) comparison
    ++ map (fun d => mkCand (exchange d) 2) comparison) <> Ambiguous.
Proof.
  intros w t u m H. destruct t, u; clear_frac;
  try match goal with E : cty_eqb ?a ?b = false |- _ => 
    assert (cty_eqb b a = false) by (apply cty_eqb_differ; intros ->; rewrite cty_eqb_same in E; discriminate) end; clear_choice.
Qed.

Lemma never_ambiguous : forall w op t u m, op <> OArith Plus -> op <> OArith Divides -> rep_common w t u ->
  resolve w op t u m <> Ambiguous.
Proof.
  intros w op t u m H H'. unfold resolve, candidates, plain_candidates, declared.
  destruct op as [op|op|op]; [destruct op; try easy; destruct (rewrites w); apply arith_clear
    |destruct (rewrites w); intros _; apply compound_clear|].
  destruct op; destruct (rewrites w); auto using compare_clear, equal_clear, unequal_clear.
Qed.

Lemma plus_ambiguous : forall w t u m, rep_common w t u -> resolve w (OArith Plus) t u m = Ambiguous ->
  (exists x f o, t = Mixed x f o) \/ (exists x f o, u = Mixed x f o).
Proof.
  intros w t u m R. destruct t, u; try (intros _; solve [left; eauto|right; eauto]);
  intros H; exfalso; revert H; match goal with |- ?x = _ -> _ => enough (x <> Ambiguous) by tauto end; clear_frac; clear_choice.
Qed.

Lemma divide_ambiguous : forall w t u m, rep_common w t u -> resolve w (OArith Divides) t u m = Ambiguous ->
  exists a o s o', t = Frac a o /\ u = Den s o' /\ o <> o'.
Proof.
  intros w t u m R. destruct t, u;
  match goal with
  | |- resolve _ _ (Frac _ ?o) (Den _ ?o') _ = _ -> _ =>
      destruct (cty_eqb o o') eqn:E;
      [apply cty_eqb_true in E; subst|intros _; do 4 eexists; split; [reflexivity|split; [reflexivity|]];
       intros ->; rewrite cty_eqb_same in E; discriminate]
  | _ => idtac
  end;
  intros H; exfalso; revert H; match goal with |- ?x = _ -> _ => enough (x <> Ambiguous) by tauto end; clear_frac; clear_choice.
Qed.

(** Literals. *)
Lemma frac_den : forall w a s o m, resolve w (OArith Divides) (Frac a o) (Den s o) m = Call FracDen 0 (Frac a o).
Proof. intros. resolved. Qed.

Lemma frac_den_differ : forall w a s o o' m, o <> o' -> common w a (Den s o') <> None ->
  resolve w (OArith Divides) (Frac a o) (Den s o') m = Ambiguous.
Proof.
  intros w a s o o' m H C. apply cty_eqb_differ in H. destruct (common w a (Den s o')) eqn:E; [|easy]. resolved.
Qed.

Lemma num_den : forall w t s o m, resolve w (OArith Divides) (Num t) (Den s o) m = Call NumDen 0 (Frac (Num t) o).
Proof. intros. resolved. Qed.

(** An assignment to something that cannot be modified. *)
Lemma constant_assign : forall w op a b o, resolve w (OAssign op) (Frac a o) (Frac b o) false = NoMatch.
Proof. intros. resolved. Qed.

Lemma constant_assign_num : forall w op a u o, resolve w (OAssign op) (Frac a o) (Num u) false = NoMatch.
Proof. intros. resolved. Qed.

(** Constructors. *)
Lemma construct_fraction : forall i a o b o', (forall v, o <> Invented v) ->
  construct i (fraction_ctors a o) (Frac b o') =
  if cty_eqb o o' then (if cty_eqb a b then Some Copy else Some SamePolicy)
  else if i then None else Some AnyPolicy.
Proof.
  intros i a o b o' N. assert (E : cty_eqb o (Invented 1) = false) by (apply cty_eqb_differ; auto).
  cbv -[cty_eqb]. cbn [cty_eqb].
  destruct (cty_eqb o o') eqn:E', (cty_eqb a b), i; cbv -[cty_eqb]; cbn [cty_eqb]; rewrite ?E; reflexivity.
Qed.

Lemma construct_mixed : forall i o b o', (forall v, o <> Invented v) ->
  construct i (mixed_ctors o) (Frac b o') =
  if cty_eqb o o' then Some SamePolicy else if i then None else Some AnyPolicy.
Proof.
  intros i o b o' N. assert (E : cty_eqb o (Invented 1) = false) by (apply cty_eqb_differ; auto).
  cbv -[cty_eqb]. destruct (cty_eqb o o') eqn:E', i; cbv -[cty_eqb]; rewrite ?E; reflexivity.
Qed.
