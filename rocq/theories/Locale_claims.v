(** Proofs of the statements in Props_Locale.v. *)

From Coq Require Import String ZArith List Bool Lia.
From Verif Require Import Machine Raw Stream Stream_spec Locale Locale_spec Parse_spec.
From Verif Require Import Machine_proofs Stream_proofs Locale_proofs.
Import ListNotations.
Open Scope Z_scope.

Lemma c115_round_trip : forall p t v rest old, numeric t -> usable p -> wf_raw t v -> stops p rest ->
  l_get_raw p t (mkIn (l_put_raw p v ++ rest) false false) old =
    (mkIn rest false (match rest with [] => true | _ => false end), v).
Proof. intros p t v rest old _ U W S. apply (l_get_raw_ok p t _ v rest old U). now apply l_put_raw_text. Qed.

Lemma c115_injective : forall p t v w, numeric t -> usable p -> wf_raw t v -> wf_raw t w ->
  l_put_raw p v = l_put_raw p w -> v = w.
Proof.
  intros p t v w N U V W E. pose proof (c115_round_trip p t v [] v N U V I) as H1.
  pose proof (c115_round_trip p t w [] v N U W I) as H2. rewrite <- E, H1 in H2. now inversion H2.
Qed.

Lemma c115_written_form : forall p v, exists ns ds nt dt,
  put_raw v = (if num v <? 0 then [45] else []) ++ ns ++ [47] ++ (if den v <? 0 then [45] else []) ++ ds /\
  l_put_raw p v = (if num v <? 0 then [45] else []) ++ nt ++ [47] ++ (if den v <? 0 then [45] else []) ++ dt /\
  grouped p 0 ns nt /\ grouped p 0 ds dt.
Proof.
  intros p v. destruct (put_int_grouped p (num v)) as (ns & nt & A & B & C & _). destruct (put_int_grouped p (den v)) as (ds & dt & D & E & F & _).
  exists ns, ds, nt, dt. unfold put_raw, l_put_raw. rewrite A, B, D, E, <- !app_assoc. auto.
Qed.

Lemma c115_accepts : forall p t text v rest old, numeric t -> usable p -> fraction_text_in p t text v rest ->
  l_get_raw p t (mkIn text false false) old = (mkIn rest false (match rest with [] => true | _ => false end), v).
Proof. intros p t text v rest old _. exact (l_get_raw_ok p t text v rest old). Qed.

Lemma c115_only_accepts : forall p t s old s' v, numeric t -> usable p -> l_get_raw p t s old = (s', v) -> failbit s' = false ->
  failbit s = false /\ eofbit s = false /\ fraction_text_in p t (unread s) v (unread s').
Proof. intros p t s old s' v _ U H F. destruct (l_get_raw_inv p t s old s' v U H F) as (A & B & C & _). auto. Qed.

Lemma c115_plain : forall p t v rest old, numeric t -> usable p -> wf_raw t v -> stops p rest ->
  l_get_raw p t (mkIn (put_raw v ++ rest) false false) old =
    (mkIn rest false (match rest with [] => true | _ => false end), v).
Proof.
  intros p t v rest old _ U [A B] S. apply (l_get_raw_ok p t _ v rest old U).
  assert (R : forall z, in_rep t z = true -> reads_as_in p t (put_int z) z).
  { intros z I. destruct (put_int_reads t z I) as (neg & m & N & V). exists neg, m. split; auto.
    inversion N; subst; [exists [], (put_int z), (put_int z)|exists [43], ds, ds|exists [45], ds, ds]; unfold sign_text; repeat split; auto. }
  exists [], (put_int (num v)), [], [], (put_int (den v)). unfold put_raw. rewrite <- !app_assoc. cbn [app]. repeat split; auto.
Qed.

Lemma c115_classic : forall p t v s old, grouping p = [] ->
  l_put_raw p v = put_raw v /\ l_get_raw p t s old = get_raw t s old.
Proof. intros p t v s old G. split; [now apply plain_put|now apply plain_get]. Qed.

Lemma c115_read_elsewhere : forall p t v rest old, numeric t -> usable p -> wf_raw t v -> no_digit_first rest ->
  exists a b tail, 0 <= a /\ 0 <= b /\
    get_raw t (mkIn (l_put_raw p v ++ rest) false false) old =
      (mkIn (tail ++ rest) false (match tail ++ rest with [] => true | _ => false end),
       mkRaw (Z.quot (num v) (10 ^ a)) (Z.quot (den v) (10 ^ b))) /\
    (a = 0 <-> one_group p (num v)) /\ (b = 0 <-> one_group p (den v)) /\ (b = 0 -> tail = []).
Proof. intros p t v rest old _. exact (read_elsewhere p t v rest old). Qed.

Lemma c115_elsewhere_refuted : exists p v, usable p /\ wf_raw int32 v /\
  get_raw int32 (mkIn (l_put_raw p v) false false) (mkRaw 7 9) = (mkIn [] false true, mkRaw 1 3) /\ v = mkRaw 1000 3.
Proof.
  exists (mkPunct [3] 44), (mkRaw 1000 3). split; [unfold usable, decimal; cbn; lia|]. split; [split; reflexivity|]. split; reflexivity.
Qed.

