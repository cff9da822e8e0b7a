(** Proofs of the statements in Props_Overload.v. *)

From Coq Require Import List Bool ZArith.
From Verif Require Import Machine Ops Overload Overload_spec Overload_proofs.

Lemma c117_fractions : forall w op a b o c m, is_assignment op = false -> common w a b = Some c ->
  resolve w op (Frac a o) (Frac b o) m = Call FracFrac 0 (call_type op a o c).
Proof.
  intros w op a b o c m A H. destruct op as [op|op|op]; [|discriminate|].
  - now apply same_arith.
  - apply same_compare. congruence.
Qed.

Lemma c117_numbers : forall w op a u o c m, is_assignment op = false ->
  (common w a (Num u) = Some c -> resolve w op (Frac a o) (Num u) m = Call FracNum 0 (call_type op a o c)) /\
  (common w (Num u) a = Some c -> resolve w op (Num u) (Frac a o) m = Call NumFrac 0 (call_type op a o c)).
Proof.
  intros w op a u o c m A. destruct op as [op|op|op]; [|discriminate|]; split; intros H.
  - now apply num_right.
  - now apply num_left.
  - apply num_right_compare. congruence.
  - apply num_left_compare. congruence.
Qed.

Lemma c117_policies : forall w op a b o o' m, is_assignment op = false -> o <> o' ->
  resolve w op (Frac a o) (Frac b o') m = Call Deleted 0 Void.
Proof.
  intros w op a b o o' m A H. destruct op as [op|op|op]; [|discriminate|].
  - now apply differ_arith.
  - now apply differ_compare.
Qed.

Lemma c117_assign : forall w op a b u o,
  (convertible w b a = true -> resolve w (OAssign op) (Frac a o) (Frac b o) true = Call FracFrac 0 (Frac a o)) /\
  (convertible w (Num u) a = true -> resolve w (OAssign op) (Frac a o) (Num u) true = Call FracNum 0 (Frac a o)) /\
  resolve w (OAssign op) (Frac a o) (Frac b o) false = NoMatch /\
  resolve w (OAssign op) (Frac a o) (Num u) false = NoMatch.
Proof.
  intros w op a b u o. split; [|split; [|split]].
  - now apply same_assign.
  - now apply num_assign.
  - apply constant_assign.
  - apply constant_assign_num.
Qed.

Lemma c117_assign_policies : forall w op a b o o' m, o <> o' ->
  resolve w (OAssign op) (Frac a o) (Frac b o') m =
  if m && convertible w (Frac b o') a then Call FracNum 0 (Frac a o) else Call Deleted 0 Void.
Proof. exact differ_assign. Qed.

Lemma c117_integers_policies : forall r op t u o o' m, o <> o' ->
  resolve (cxx r) op (Frac (Num t) o) (Frac (Num u) o') m = Call Deleted 0 Void.
Proof.
  intros r op t u o o' m H. destruct op as [op|op|op].
  - now apply differ_arith.
  - rewrite differ_assign by assumption. cbn. now rewrite andb_false_r.
  - now apply differ_compare.
Qed.

Lemma c117_integers : forall r op t u o,
  resolve (cxx r) op (Frac (Num t) o) (Frac (Num u) o) true =
    Call FracFrac 0 (call_type op (Num t) o (Num (common_rep t u))) /\
  resolve (cxx r) op (Frac (Num t) o) (Num u) true =
    Call FracNum 0 (call_type op (Num t) o (Num (common_rep t u))) /\
  (is_assignment op = false ->
    resolve (cxx r) op (Num t) (Frac (Num u) o) true =
      Call NumFrac 0 (call_type op (Num t) o (Num (common_rep t u)))).
Proof.
  intros r op t u o.
  assert (C : common (cxx r) (Num t) (Num u) = Some (Num (common_rep t u))).
  { cbn. unfold cxx_common. cbn. destruct (rep_eqb t u) eqn:E; [|reflexivity].
    apply rep_eqb_true in E. subst. unfold common_rep. destruct u as [b z]. cbn. destruct b; cbn; rewrite ?Z.leb_refl, ?Z.ltb_irrefl; reflexivity. }
  destruct op as [op|op|op].
  - split; [now apply same_arith|]. split; [now apply num_right|]. intros _. now apply num_left.
  - split; [apply same_assign; cbn; apply orb_true_r|]. split; [apply num_assign; cbn; apply orb_true_r|]. discriminate.
  - split; [apply same_compare; congruence|]. split; [apply num_right_compare; congruence|].
    intros _. apply num_left_compare. congruence.
Qed.

Lemma c117_mixed : forall w x f y g u o c d m,
  (common w x y = Some c -> common w f g = Some d ->
    resolve w (OArith Plus) (Mixed x f o) (Mixed y g o) m = Call MixedMixed 0 (Mixed c d o)) /\
  (common w x g = Some c -> common w f g = Some d ->
    resolve w (OArith Plus) (Mixed x f o) (Frac g o) m = Call MixedFrac 0 (Mixed c d o) /\
    resolve w (OArith Plus) (Frac g o) (Mixed x f o) m = Call FracMixed 0 (Mixed c d o)) /\
  (common w x (Num u) = Some c -> resolve w (OArith Plus) (Mixed x f o) (Num u) m = Call MixedNum 0 (Mixed c f o)) /\
  (common w (Num u) x = Some c -> resolve w (OArith Plus) (Num u) (Mixed x f o) m = Call NumMixed 0 (Mixed c f o)).
Proof.
  intros w x f y g u o c d m. split; [|split; [|split]].
  - now apply mixed_mixed.
  - now apply mixed_frac.
  - now apply mixed_num.
  - now apply num_mixed.
Qed.

Lemma c117_mixed_policies : forall r t u v x o o' m, o <> o' ->
  resolve (cxx r) (OArith Plus) (Mixed (Num t) (Num u) o) (Mixed (Num v) (Num x) o') m = Ambiguous /\
  resolve (cxx r) (OArith Plus) (Mixed (Num t) (Num u) o) (Frac (Num v) o') m = Ambiguous /\
  resolve (cxx r) (OArith Plus) (Frac (Num v) o') (Mixed (Num t) (Num u) o) m = Ambiguous.
Proof.
  intros r t u v x o o' m H. split; [|apply and_comm].
  - apply differ_mixed; [assumption|discriminate..].
  - apply differ_mixed_frac; [congruence|discriminate..].
Qed.

Lemma c117_mixed_only_plus : forall w op x f o y g o' m, op <> OArith Plus ->
  resolve w op (Mixed x f o) (Mixed y g o') m = NoMatch.
Proof. exact mixed_only_plus. Qed.

Lemma c117_unambiguous : forall w op t u m, rep_common w t u -> resolve w op t u m = Ambiguous ->
  (op = OArith Plus /\ ((exists x f o, t = Mixed x f o) \/ (exists x f o, u = Mixed x f o))) \/
  (op = OArith Divides /\ exists a o s o', t = Frac a o /\ u = Den s o' /\ o <> o').
Proof.
  intros w op t u m R H. assert (D : op = OArith Plus \/ op = OArith Divides \/ (op <> OArith Plus /\ op <> OArith Divides)).
  { destruct op as [op|op|op]; try (right; right; split; discriminate).
    destruct op; try (right; right; split; discriminate); [now left|right; now left]. }
  destruct D as [->|[->|[D D']]].
  - left. split; [reflexivity|]. now apply (plus_ambiguous w t u m).
  - right. split; [reflexivity|]. now apply (divide_ambiguous w t u m).
  - elim (never_ambiguous w op t u m D D' R H).
Qed.

Lemma c117_constructors : forall a o b o', (forall v, o <> Invented v) ->
  (construct true (fraction_ctors a o) (Frac b o') <> None <-> o = o') /\
  (construct true (mixed_ctors o) (Frac b o') <> None <-> o = o') /\
  construct false (fraction_ctors a o) (Frac b o') <> None /\
  construct false (mixed_ctors o) (Frac b o') <> None /\
  (o = o' -> construct false (fraction_ctors a o) (Frac b o') = construct true (fraction_ctors a o) (Frac b o') /\
             construct false (mixed_ctors o) (Frac b o') = construct true (mixed_ctors o) (Frac b o')).
Proof.
  intros a o b o' N. rewrite !construct_fraction, !construct_mixed by assumption.
  destruct (cty_eqb o o') eqn:E.
  - apply cty_eqb_true in E. subst. destruct (cty_eqb a b); (split; [|split; [|split; [|split]]]); split || idtac; congruence || (intros; congruence) || (intros; split; reflexivity).
  - assert (D : o <> o') by (intros ->; rewrite cty_eqb_same in E; discriminate).
    split; [|split; [|split; [|split]]]; try split; try congruence.
Qed.

