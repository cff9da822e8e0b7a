(** Property theorems: mixed numbers of unsigned types.

    Each is closed by the lemma of the same name in Umixed_claims.v. *)

From Coq Require Import ZArith QArith List Bool Lia Lqa.
From Verif Require Import Machine Raw Ops Spec Fraction Fraction_spec Fmath Mixed Mixed_spec Unsigned_spec Mixed3_spec MixDef_spec Umixed_spec.
From Verif Require Import Machine_proofs Value_proofs Mixed_proofs Mixed3_proofs Unsigned_proofs Umixed_proofs.
Open Scope Z_scope.
From Verif Require Import Umixed_claims.

(** C112: what an expression without negation gives over the signed type one bit wider,
    it gives over the unsigned type, with the exact value and in normal form. *)
Theorem C112_as_signed : forall o t s e m, widens t s -> typed t e -> no_negation e ->
  meval (denote o) (retyped s e) = Ok m ->
  meval (denote o) e = Ok m /\ wf_mixed t t m /\ normal_form m /\ same_value (mixed_value m) (mdenotes e).
Proof. exact c112_as_signed. Qed.
Print Assumptions C112_as_signed.

(** C112: the conversion to a fraction likewise. *)
Theorem C112_as_fraction : forall o t s m r, widens t s -> wf_mixed t t m ->
  mixed_as_fraction (denote o) s s m = Ok r ->
  mixed_as_fraction (denote o) t t m = Ok r /\ wf_raw t r /\ same_value (value r) (mixed_value m).
Proof. exact c112_as_fraction. Qed.
Print Assumptions C112_as_fraction.

(** C112: an expression without negation over an unsigned type, every value of which is
    at most [W] with a denominator of at most [B], gives the number it denotes. *)
Theorem C112_total : forall o t B W e, unsigned_rep t -> output_canonical o = true -> 1 <= B <= W ->
  typed t e -> no_negation e -> small_mexpr B W e ->
  exists m, meval (denote o) e = Ok m /\ wf_mixed t t m /\ normal_form m /\ same_value (mixed_value m) (mdenotes e).
Proof. exact c112_total. Qed.
Print Assumptions C112_total.

(** C112: three billion and a third, plus two thirds, plus a half, over uint32, where the
    signed type of the same width does not hold the whole parts. *)
Example C112_example :
  let e := MPlusFraction (MPlus (MMake uint32 uint32 2000000000 (mkRaw 1 3))
             (MMake uint32 uint32 0 (mkRaw 2 3))) uint32 (mkRaw 1 2) in
  typed uint32 e /\ no_negation e /\ small_mexpr 10 2147483646 e /\
  meval (denote defaults) e = Ok (mkMixed 2000000001 (mkRaw 1 2)) /\
  meval (denote defaults) (MPlusWhole e uint32 2000000000) = Ok (mkMixed 4000000001 (mkRaw 1 2)).
Proof.
  split; [|split; [|split; [|split]]].
  - cbn. unfold wf_raw. cbn. repeat split.
  - cbn. auto.
  - small_closed.
  - vm_compute. reflexivity.
  - vm_compute. reflexivity.
Qed.

(** C112: no mixed number of unsigned types is negative, so negation and sums that do
    not fit are silently wrong. *)
Theorem C112_never_negative : forall tw tf m q, rsigned tw = false -> rsigned tf = false -> wf_mixed tw tf m ->
  mixed_value m = Some q -> (0 <= q)%Q.
Proof. exact c112_never_negative. Qed.
Print Assumptions C112_never_negative.

Theorem C112_negate_refuted : exists e m, typed uint32 e /\ meval (denote defaults) e = Ok m /\
  ~ same_value (mixed_value m) (mdenotes e) /\ e = MNeg (MMake uint32 uint32 1 (mkRaw 1 2)).
Proof. exact c112_negate_refuted. Qed.
Print Assumptions C112_negate_refuted.

Theorem C112_wraps_refuted : exists e m, typed uint32 e /\ no_negation e /\ meval (denote defaults) e = Ok m /\
  ~ same_value (mixed_value m) (mdenotes e).
Proof. exact c112_wraps_refuted. Qed.
Print Assumptions C112_wraps_refuted.
