(** Property theorems: streams whose locale groups digits.

    Each is closed by the lemma of the same name in Locale_claims.v. *)

From Coq Require Import String ZArith List Bool Lia.
From Verif Require Import Machine Raw Stream Stream_spec Locale Locale_spec Parse_spec.
From Verif Require Import Machine_proofs Stream_proofs Locale_proofs.
Import ListNotations.
Open Scope Z_scope.
From Verif Require Import Locale_claims.

(** C115: whatever the grouping, a fraction written is read back identically by a stream
    of the same locale. *)
Theorem C115_round_trip : forall p t v rest old, numeric t -> usable p -> wf_raw t v -> stops p rest ->
  l_get_raw p t (mkIn (l_put_raw p v ++ rest) false false) old =
    (mkIn rest false (match rest with [] => true | _ => false end), v).
Proof. exact c115_round_trip. Qed.
Print Assumptions C115_round_trip.

(** C115: so different fractions are written differently. *)
Theorem C115_injective : forall p t v w, numeric t -> usable p -> wf_raw t v -> wf_raw t w ->
  l_put_raw p v = l_put_raw p w -> v = w.
Proof. exact c115_injective. Qed.
Print Assumptions C115_injective.

(** C115: what is written is what the classic locale writes, with the digits grouped. *)
Theorem C115_written_form : forall p v, exists ns ds nt dt,
  put_raw v = (if num v <? 0 then [45] else []) ++ ns ++ [47] ++ (if den v <? 0 then [45] else []) ++ ds /\
  l_put_raw p v = (if num v <? 0 then [45] else []) ++ nt ++ [47] ++ (if den v <? 0 then [45] else []) ++ dt /\
  grouped p 0 ns nt /\ grouped p 0 ds dt.
Proof. exact c115_written_form. Qed.
Print Assumptions C115_written_form.

(** C115: reading succeeds on exactly the texts in which both numbers are grouped as the
    locale says, or not at all, with the values they spell. *)
Theorem C115_accepts : forall p t text v rest old, numeric t -> usable p -> fraction_text_in p t text v rest ->
  l_get_raw p t (mkIn text false false) old = (mkIn rest false (match rest with [] => true | _ => false end), v).
Proof. exact c115_accepts. Qed.
Print Assumptions C115_accepts.

Theorem C115_only_accepts : forall p t s old s' v, numeric t -> usable p -> l_get_raw p t s old = (s', v) -> failbit s' = false ->
  failbit s = false /\ eofbit s = false /\ fraction_text_in p t (unread s) v (unread s').
Proof. exact c115_only_accepts. Qed.
Print Assumptions C115_only_accepts.

(** C115: in particular text written in the classic locale is read by every locale. *)
Theorem C115_plain : forall p t v rest old, numeric t -> usable p -> wf_raw t v -> stops p rest ->
  l_get_raw p t (mkIn (put_raw v ++ rest) false false) old =
    (mkIn rest false (match rest with [] => true | _ => false end), v).
Proof. exact c115_plain. Qed.
Print Assumptions C115_plain.

(** C115: a locale that does not group is the classic one. *)
Theorem C115_classic : forall p t v s old, grouping p = [] ->
  l_put_raw p v = put_raw v /\ l_get_raw p t s old = get_raw t s old.
Proof. exact c115_classic. Qed.
Print Assumptions C115_classic.

(** C115: the other way round nothing fails, but digits are lost: reading a fraction in the
    classic locale that was written with groups yields the leading groups only; the
    separator and what follows it count as text before the slash. *)
Theorem C115_read_elsewhere : forall p t v rest old, numeric t -> usable p -> wf_raw t v -> no_digit_first rest ->
  exists a b tail, 0 <= a /\ 0 <= b /\
    get_raw t (mkIn (l_put_raw p v ++ rest) false false) old =
      (mkIn (tail ++ rest) false (match tail ++ rest with [] => true | _ => false end),
       mkRaw (Z.quot (num v) (10 ^ a)) (Z.quot (den v) (10 ^ b))) /\
    (a = 0 <-> one_group p (num v)) /\ (b = 0 <-> one_group p (den v)) /\ (b = 0 -> tail = []).
Proof. exact c115_read_elsewhere. Qed.
Print Assumptions C115_read_elsewhere.

(** C115: for example 1000/3 written by an English stream is read as 1/3 by a classic one. *)
Theorem C115_elsewhere_refuted : exists p v, usable p /\ wf_raw int32 v /\
  get_raw int32 (mkIn (l_put_raw p v) false false) (mkRaw 7 9) = (mkIn [] false true, mkRaw 1 3) /\ v = mkRaw 1000 3.
Proof. exact c115_elsewhere_refuted. Qed.
Print Assumptions C115_elsewhere_refuted.

(** English and Indian grouping, and a space as separator. *)
Example C115_nonvacuous :
  l_put_raw (mkPunct [3] 44) (mkRaw (-1234567) 89012) = codes "-1,234,567/89,012" /\
  l_get_raw (mkPunct [3] 44) int32 (mkIn (codes "-1,234,567/89,012;") false false) (mkRaw 7 9)
    = (mkIn (codes ";") false false, mkRaw (-1234567) 89012) /\
  l_put_raw (mkPunct [3; 2] 44) (mkRaw 123456789 100000) = codes "12,34,56,789/1,00,000" /\
  l_get_raw (mkPunct [3; 2] 44) int32 (mkIn (codes "12,34,56,789/1,00,000") false false) (mkRaw 7 9)
    = (mkIn [] false true, mkRaw 123456789 100000) /\
  l_put_raw (mkPunct [3; 0] 32) (mkRaw 123456789 1000) = codes "123456 789/1 000" /\
  l_get_raw (mkPunct [3] 44) int32 (mkIn (codes "12,34/5") false false) (mkRaw 7 9) = (mkIn (codes "/5") true false, mkRaw 1234 9) /\
  l_get_raw (mkPunct [3] 44) int32 (mkIn (codes "1234567/5,") false false) (mkRaw 7 9) = (mkIn [] true true, mkRaw 1234567 5) /\
  get_raw int32 (mkIn (codes "-1,234,567/89,012;") false false) (mkRaw 7 9) = (mkIn (codes ",012;") false false, mkRaw (-1) 89) /\
  usable (mkPunct [3; 2] 44) /\ usable (mkPunct [3; 0] 32) /\ stops (mkPunct [3] 44) (codes ";").
Proof.
  repeat match goal with |- _ /\ _ => split end; try reflexivity; unfold usable, decimal; cbn; unfold decimal; try lia; split; lia.
Qed.
