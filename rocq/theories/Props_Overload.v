(** Property theorems: which overload of an operator is called.

    Each is closed by the lemma of the same name in Overload_claims.v. *)

From Coq Require Import List Bool ZArith.
From Verif Require Import Machine Ops Overload Overload_spec Overload_proofs.
From Verif Require Import Overload_claims.

(** C117: an operator between two fractions of one policy calls the overload for two
    fractions, for any representations with a common type; the result is a fraction of
    that type and policy. *)
Theorem C117_fractions : forall w op a b o c m, is_assignment op = false -> common w a b = Some c ->
  resolve w op (Frac a o) (Frac b o) m = Call FracFrac 0 (call_type op a o c).
Proof. exact c117_fractions. Qed.
Print Assumptions C117_fractions.

(** C117: an operator between a fraction and a number calls the overload with the number
    on that side. *)
Theorem C117_numbers : forall w op a u o c m, is_assignment op = false ->
  (common w a (Num u) = Some c -> resolve w op (Frac a o) (Num u) m = Call FracNum 0 (call_type op a o c)) /\
  (common w (Num u) a = Some c -> resolve w op (Num u) (Frac a o) m = Call NumFrac 0 (call_type op a o c)).
Proof. exact c117_numbers. Qed.
Print Assumptions C117_numbers.

(** C117: an arithmetic operator or comparison between fractions of different policies
    calls a deleted function, whatever the representations are. *)
Theorem C117_policies : forall w op a b o o' m, is_assignment op = false -> o <> o' ->
  resolve w op (Frac a o) (Frac b o') m = Call Deleted 0 Void.
Proof. exact c117_policies. Qed.
Print Assumptions C117_policies.

(** C117: a compound assignment to a variable calls the overload for a fraction or for a
    number, if that converts to the representation of the variable; it does not compile
    for a constant. *)
Theorem C117_assign : forall w op a b u o,
  (convertible w b a = true -> resolve w (OAssign op) (Frac a o) (Frac b o) true = Call FracFrac 0 (Frac a o)) /\
  (convertible w (Num u) a = true -> resolve w (OAssign op) (Frac a o) (Num u) true = Call FracNum 0 (Frac a o)) /\
  resolve w (OAssign op) (Frac a o) (Frac b o) false = NoMatch /\
  resolve w (OAssign op) (Frac a o) (Num u) false = NoMatch.
Proof. exact c117_assign. Qed.
Print Assumptions C117_assign.

(** C117: a compound assignment of a fraction of another policy is deleted, unless that
    fraction converts to the representation of the variable, as for a fraction of
    fractions. *)
Theorem C117_assign_policies : forall w op a b o o' m, o <> o' ->
  resolve w (OAssign op) (Frac a o) (Frac b o') m =
  if m && convertible w (Frac b o') a then Call FracNum 0 (Frac a o) else Call Deleted 0 Void.
Proof. exact c117_assign_policies. Qed.
Print Assumptions C117_assign_policies.

(** C117: so for fractions of integers mixing policies is always rejected by a deleted
    function. *)
Theorem C117_integers_policies : forall r op t u o o' m, o <> o' ->
  resolve (cxx r) op (Frac (Num t) o) (Frac (Num u) o') m = Call Deleted 0 Void.
Proof. exact c117_integers_policies. Qed.
Print Assumptions C117_integers_policies.

(** C117: and with one policy every operator on fractions of integers finds its overload;
    the common type is that of the usual arithmetic conversions. *)
Theorem C117_integers : forall r op t u o,
  resolve (cxx r) op (Frac (Num t) o) (Frac (Num u) o) true =
    Call FracFrac 0 (call_type op (Num t) o (Num (common_rep t u))) /\
  resolve (cxx r) op (Frac (Num t) o) (Num u) true =
    Call FracNum 0 (call_type op (Num t) o (Num (common_rep t u))) /\
  (is_assignment op = false ->
    resolve (cxx r) op (Num t) (Frac (Num u) o) true =
      Call NumFrac 0 (call_type op (Num t) o (Num (common_rep t u)))).
Proof. exact c117_integers. Qed.
Print Assumptions C117_integers.

(** C117: operator+ with a mixed number. *)
Theorem C117_mixed : forall w x f y g u o c d m,
  (common w x y = Some c -> common w f g = Some d ->
    resolve w (OArith Plus) (Mixed x f o) (Mixed y g o) m = Call MixedMixed 0 (Mixed c d o)) /\
  (common w x g = Some c -> common w f g = Some d ->
    resolve w (OArith Plus) (Mixed x f o) (Frac g o) m = Call MixedFrac 0 (Mixed c d o) /\
    resolve w (OArith Plus) (Frac g o) (Mixed x f o) m = Call FracMixed 0 (Mixed c d o)) /\
  (common w x (Num u) = Some c -> resolve w (OArith Plus) (Mixed x f o) (Num u) m = Call MixedNum 0 (Mixed c f o)) /\
  (common w (Num u) x = Some c -> resolve w (OArith Plus) (Num u) (Mixed x f o) m = Call NumMixed 0 (Mixed c f o)).
Proof. exact c117_mixed. Qed.
Print Assumptions C117_mixed.

(** C117: mixed numbers of different policies are rejected as ambiguous, and so are a mixed
    number and a fraction; no other operator exists for two mixed numbers. *)
Theorem C117_mixed_policies : forall r t u v x o o' m, o <> o' ->
  resolve (cxx r) (OArith Plus) (Mixed (Num t) (Num u) o) (Mixed (Num v) (Num x) o') m = Ambiguous /\
  resolve (cxx r) (OArith Plus) (Mixed (Num t) (Num u) o) (Frac (Num v) o') m = Ambiguous /\
  resolve (cxx r) (OArith Plus) (Frac (Num v) o') (Mixed (Num t) (Num u) o) m = Ambiguous.
Proof. exact c117_mixed_policies. Qed.
Print Assumptions C117_mixed_policies.

Theorem C117_mixed_only_plus : forall w op x f o y g o' m, op <> OArith Plus ->
  resolve w op (Mixed x f o) (Mixed y g o') m = NoMatch.
Proof. exact c117_mixed_only_plus. Qed.
Print Assumptions C117_mixed_only_plus.

(** C117: no other call is ambiguous, as long as the representations of fractions of one
    policy have a common type, but for a fraction over a literal of another policy. *)
Theorem C117_unambiguous : forall w op t u m, rep_common w t u -> resolve w op t u m = Ambiguous ->
  (op = OArith Plus /\ ((exists x f o, t = Mixed x f o) \/ (exists x f o, u = Mixed x f o))) \/
  (op = OArith Divides /\ exists a o s o', t = Frac a o /\ u = Den s o' /\ o <> o').
Proof. exact c117_unambiguous. Qed.
Print Assumptions C117_unambiguous.

(** C117: a fraction converts implicitly to a fraction or a mixed number exactly if the
    policy is the same; explicitly, always, by a constructor that any conversion between
    two fractions of one policy uses in both forms. *)
Theorem C117_constructors : forall a o b o', (forall v, o <> Invented v) ->
  (construct true (fraction_ctors a o) (Frac b o') <> None <-> o = o') /\
  (construct true (mixed_ctors o) (Frac b o') <> None <-> o = o') /\
  construct false (fraction_ctors a o) (Frac b o') <> None /\
  construct false (mixed_ctors o) (Frac b o') <> None /\
  (o = o' -> construct false (fraction_ctors a o) (Frac b o') = construct true (fraction_ctors a o) (Frac b o') /\
             construct false (mixed_ctors o) (Frac b o') = construct true (mixed_ctors o) (Frac b o')).
Proof. exact c117_constructors. Qed.
Print Assumptions C117_constructors.

(** Policies 0 and 1, int and long: x + y, x < y, x += y, x + 1, 1 == x between fractions, a
    mixed number plus a fraction; and a compound assignment to a fraction of fractions. *)
Example C117_nonvacuous :
  let w := cxx true in let i := Num int32 in let l := Num int64 in let p := Other 0 in let q := Other 1 in
  resolve w (OArith Plus) (Frac i p) (Frac l p) true = Call FracFrac 0 (Frac l p) /\
  resolve w (OCompare Lt) (Frac i p) (Frac l q) true = Call Deleted 0 Void /\
  resolve w (OCompare Eq) i (Frac l q) true = Call NumFrac 0 Bool /\
  resolve w (OAssign Plus) (Frac i p) (Frac l p) true = Call FracFrac 0 (Frac i p) /\
  resolve w (OAssign Plus) (Frac (Frac i q) p) (Frac l q) true = Call FracNum 0 (Frac (Frac i q) p) /\
  resolve w (OArith Plus) (Mixed i i p) (Frac l p) true = Call MixedFrac 0 (Mixed l l p) /\
  resolve w (OArith Minus) (Mixed i i p) (Mixed i i p) true = NoMatch /\
  rep_common w (Frac i p) (Frac l p) /\ construct true (fraction_ctors i p) (Frac l p) = Some SamePolicy.
Proof.
  cbv zeta. split; [vm_compute; reflexivity|]. split; [vm_compute; reflexivity|]. split; [vm_compute; reflexivity|].
  split; [vm_compute; reflexivity|]. split; [vm_compute; reflexivity|]. split; [vm_compute; reflexivity|].
  split; [vm_compute; reflexivity|]. split; [|vm_compute; reflexivity]. intros _. vm_compute. discriminate.
Qed.
