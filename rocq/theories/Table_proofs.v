(** Lemmas on hash tables of fractions. *)

From Coq Require Import ZArith QArith List Bool Lia.
From Verif Require Import Machine Raw Ops Spec Fraction Hash Table Table_spec.
From Verif Require Import Machine_proofs Value_proofs Ops_proofs Cmp_claims Algebra_proofs Fraction_proofs Literals_proofs.
Import ListNotations.
Open Scope Z_scope.

Section Tables.
  Variables (h : Z -> Z) (o : ops) (t : rep).
  Hypothesis W : wf_rep t.
  Hypothesis S : rsigned t = true.

  Lemma eq_keys : forall x k b, key t x -> key t k -> f_cmp (denote o) t t Eq (RR x k) = Ok b -> (b = true <-> x = k).
  Proof using W S.
    intros x k b (WX & CX & DX) (WK & CK & DK) H. rewrite f_cmp_self in H.
    rewrite (c12_equality_exact o t (RR x k) b W S (conj WX WK) H). cbn [left_value right_value]. split.
    - intros (a & c & A & C & E). apply canonical_unique; auto. rewrite A, C. exact E.
    - intros <-. destruct (value x) as [q|] eqn:E; [|congruence]. exists q, q. split; [reflexivity|]. split; reflexivity.
  Qed.

  Lemma find_keys : forall k l b, key t k -> Forall (key t) l -> find_in (denote o) t k l = Ok b -> (b = true <-> In k l).
  Proof using W S.
    intros k l b K. revert b. induction l as [|x l IH]; intros b F H; cbn [find_in] in H.
    - injection H as <-. split; [discriminate|intros []].
    - inversion F; subst. inv_bind H. pose proof (eq_keys x k a) as EK. destruct a.
      + injection H as <-. split; auto. intros _. left. now apply EK.
      + rewrite (IH b); auto. split; [now right|]. intros [E'|I]; auto. apply EK in E'; auto. discriminate.
  Qed.
  Lemma remove_keys : forall k l l', key t k -> Forall (key t) l -> NoDup l -> remove_in (denote o) t k l = Ok l' ->
    (forall x, In x l' <-> In x l /\ x <> k) /\ NoDup l' /\ Forall (key t) l'.
  Proof using W S.
    intros k l. induction l as [|x l IH]; intros l' K F N H; cbn [remove_in] in H.
    - injection H as <-. split; [|auto]. intros y. split; [intros []|intros [[] _]].
    - inversion F; inversion N; subst. inv_bind H. pose proof (eq_keys x k a) as EK. destruct a.
      + injection H as <-. assert (x = k) by now apply EK. subst. split; [|auto]. intros y. cbn [In]. split.
        * intros I. split; [now right|]. intros ->. contradiction.
        * intros [[<-|I] NE]; [congruence|auto].
      + inv_bind H. injection H as <-. destruct (IH a) as (A & B & C); auto. split; [|split].
        * intros y. cbn [In]. rewrite A. split.
          { intros [<-|[I NE]]; [|auto]. split; auto. intros EX. apply EK in EX; auto. discriminate. }
          { intros [[<-|I] NE]; auto. }
        * constructor; auto. rewrite A. tauto.
        * constructor; auto.
  Qed.

  Definition good (T : table) : Prop := (0 < buckets T)%nat /\
    forall i, (i < buckets T)%nat -> NoDup (bucket T i) /\ Forall (key t) (bucket T i) /\ (forall v, In v (bucket T i) -> slot h (buckets T) v = i).
  Definition has (T : table) (v : raw) : Prop := In v (bucket T (slot h (buckets T) v)).

  Lemma slot_lt : forall n v, (0 < n)%nat -> (slot h n v < n)%nat.
  Proof using. intros n v N. unfold slot. pose proof (Z.mod_pos_bound (hash_raw h v) (Z.of_nat n)). lia. Qed.

  Lemma has_elements : forall T v, good T -> has T v <-> In v (elements T).
  Proof using.
    intros T v [P G]. unfold has, elements. rewrite in_flat_map. split.
    - intros I. exists (slot h (buckets T) v). split; auto. apply in_seq. pose proof (slot_lt (buckets T) v P). lia.
    - intros (i & IS & I). apply in_seq in IS. destruct (G i) as (_ & _ & SL); [lia|]. now rewrite (SL v I).
  Qed.
  Lemma has_key : forall T v, good T -> has T v -> key t v.
  Proof using.
    intros T v [P G] I. destruct (G (slot h (buckets T) v)) as (_ & F & _); [now apply slot_lt|].
    rewrite Forall_forall in F. now apply F.
  Qed.

  Lemma NoDup_app_intro : forall A (l m : list A), NoDup l -> NoDup m -> (forall x, In x l -> ~ In x m) -> NoDup (l ++ m).
  Proof using.
    intros A l m NL NM D. induction l as [|x l IH]; cbn; auto. inversion NL; subst. constructor.
    - rewrite in_app_iff. intros [I|I]; [contradiction|]. apply (D x); auto. now left.
    - apply IH; auto. intros y Y. apply D. now right.
  Qed.
  Lemma elements_nodup : forall T, good T -> NoDup (elements T).
  Proof using.
    intros T [P G]. unfold elements.
    assert (K : forall n a, (a + n <= buckets T)%nat -> NoDup (flat_map (bucket T) (seq a n))).
    { induction n as [|n IH]; intros a L; cbn [seq flat_map]; [constructor|].
      destruct (G a) as (N & _ & SL); [lia|]. apply NoDup_app_intro; auto; [apply IH; lia|].
      intros x X Y. apply in_flat_map in Y as (j & J & Y). apply in_seq in J. destruct (G j) as (_ & _ & SJ); [lia|].
      rewrite <- (SL x X), <- (SJ x Y) in J. lia. }
    apply K. lia.
  Qed.

  Lemma empty_good : forall n, (0 < n)%nat -> good (empty_table n) /\ forall v, ~ has (empty_table n) v.
  Proof using.
    intros n N. split; [|intros v []]. split; [exact N|]. intros i I. cbn. split; [constructor|]. split; [constructor|]. intros v [].
  Qed.

  Lemma put_good : forall T v, good T -> key t v -> ~ has T v -> good (put h T v) /\ forall x, has (put h T v) x <-> has T x \/ x = v.
  Proof using.
    intros T v [P G] K N. unfold good, has, put in *. cbn [buckets bucket]. split.
    - split; auto. intros i I. destruct (Nat.eqb_spec i (slot h (buckets T) v)) as [->|NE]; [|now apply G].
      destruct (G _ I) as (A & B & C). split; [now constructor|]. split; [now constructor|].
      intros x [<-|X]; auto.
    - intros x. destruct (Nat.eqb_spec (slot h (buckets T) x) (slot h (buckets T) v)) as [E|NE].
      + rewrite E. cbn [In]. intuition.
      + split; auto. intros [I| ->]; [auto|congruence].
  Qed.

  Lemma insert_good : forall T v T', good T -> key t v -> insert h (denote o) t T v = Ok T' ->
    good T' /\ forall x, has T' x <-> has T x \/ x = v.
  Proof using W S.
    intros T v T' G K H. unfold insert, contains in H. inv_bind H. injection H as <-.
    assert (F : Forall (key t) (bucket T (slot h (buckets T) v))).
    { destruct G as [P G]. apply G. now apply slot_lt. }
    pose proof (find_keys v _ a K F E) as FK. destruct a.
    - split; auto. intros x. split; auto. intros [I| ->]; auto. now apply FK.
    - apply put_good; auto. intros I. apply FK in I. discriminate.
  Qed.

  Lemma erase_good : forall T v T', good T -> key t v -> erase h (denote o) t T v = Ok T' ->
    good T' /\ forall x, has T' x <-> has T x /\ x <> v.
  Proof using W S.
    intros T v T' G K H. unfold erase in H. inv_bind H. injection H as <-. destruct G as [P G].
    destruct (G (slot h (buckets T) v)) as (A & B & C); [now apply slot_lt|].
    destruct (remove_keys v _ a K B A E) as (R & N & F). unfold good, has. cbn [buckets bucket]. split.
    - split; auto. intros i I. destruct (Nat.eqb_spec i (slot h (buckets T) v)) as [->|NE]; [|now apply G].
      split; auto. split; auto. intros x X. apply C. now apply R in X.
    - intros x. destruct (Nat.eqb_spec (slot h (buckets T) x) (slot h (buckets T) v)) as [E'|NE].
      + rewrite R, E'. reflexivity.
      + split; [|tauto]. intros I. split; auto. intros ->. congruence.
  Qed.

  Lemma fold_put : forall l T, good T -> Forall (key t) l -> NoDup l -> (forall x, In x l -> ~ has T x) ->
    good (fold_left (put h) l T) /\ forall x, has (fold_left (put h) l T) x <-> has T x \/ In x l.
  Proof using.
    induction l as [|v l IH]; intros T G F N D; cbn [fold_left].
    - split; auto. intros x. cbn. tauto.
    - inversion F; inversion N; subst. destruct (put_good T v) as [G' H']; auto; [apply D; now left|].
      destruct (IH (put h T v)) as [A B]; auto.
      + intros x X HX. apply H' in HX as [HX| ->]; [|contradiction]. apply (D x); auto. now right.
      + split; auto. intros x. rewrite B, H'. cbn [In]. intuition.
  Qed.
  Lemma rehash_good : forall T n, good T -> good (rehash h n T) /\ forall x, has (rehash h n T) x <-> has T x.
  Proof using.
    intros T n G. destruct (empty_good (Datatypes.S n)) as [GE NE]; [lia|]. unfold rehash.
    destruct (fold_put (elements T) (empty_table (Datatypes.S n)) GE) as [A B].
    - apply Forall_forall. intros x X. apply has_elements in X; auto. now apply (has_key T).
    - now apply elements_nodup.
    - intros x _. apply NE.
    - split; auto. intros x. rewrite B, <- has_elements by auto. split; [intros [N|I]; auto; now apply NE in N|auto].
  Qed.

  Lemma key_is : forall v x, key t v -> key t x -> (forall q, value x = Some q -> is v q) <-> x = v.
  Proof using.
    intros v x (_ & CV & DV) (_ & CX & DX). split.
    - intros H. destruct (value x) as [q|] eqn:E; [|congruence]. destruct (H q eq_refl) as (y & Y & EQ).
      apply canonical_unique; auto. rewrite E, Y. cbn. now symmetry.
    - intros -> q E. exists q. split; auto. reflexivity.
  Qed.

  Definition shows (T : table) (P : Q -> Prop) : Prop := forall q, P q <-> exists v, has T v /\ is v q.

  Lemma is_unique : forall v x q, key t v -> key t x -> is v q -> is x q -> x = v.
  Proof using.
    intros v x q (_ & CV & _) (_ & CX & _) (a & A & EA) (b & B & EB). apply canonical_unique; auto.
    rewrite A, B. cbn. now rewrite EA, EB.
  Qed.

  Theorem act_good : forall T P a T', good T -> shows T P -> keys t a -> act h (denote o) t T a = Ok T' ->
    good T' /\ shows T' (after P a).
  Proof using W S.
    intros T P [v|v|n] T' G SH K H; cbn [act keys after] in *.
    - destruct (insert_good T v T' G K H) as [G' I]. split; auto. intros q. rewrite (SH q). split.
      + intros [(x & HX & IX)|IV]; [exists x; split; auto; apply I; auto|exists v; split; auto; apply I; auto].
      + intros (x & HX & IX). apply I in HX as [HX| ->]; [left; now exists x|now right].
    - destruct (erase_good T v T' G K H) as [G' I]. split; auto. intros q. rewrite (SH q). split.
      + intros [(x & HX & IX) N]. exists x. split; auto. apply I. split; auto. intros ->. contradiction.
      + intros (x & HX & IX). apply I in HX as [HX NE]. split; [now exists x|]. intros IV. apply NE.
        apply (is_unique v x q); auto. now apply (has_key T).
    - injection H as <-. destruct (rehash_good T n G) as [G' I]. split; auto. intros q. rewrite (SH q).
      split; intros (x & HX & IX); exists x; split; auto; now apply I.
  Qed.

  Theorem act_all_good : forall l T P T', good T -> shows T P -> Forall (keys t) l ->
    act_all h (denote o) t T l = Ok T' -> good T' /\ shows T' (fold_left after l P).
  Proof using W S.
    induction l as [|a l IH]; intros T P T' G SH F H; cbn [act_all fold_left] in *.
    - injection H as <-. auto.
    - inversion F; subst. inv_bind H. destruct (act_good T P a a0 G SH) as [G' SH']; auto. now apply (IH a0).
  Qed.

  Theorem contains_shows : forall T P k b q, good T -> shows T P -> key t k -> value k = Some q ->
    contains h (denote o) t T k = Ok b -> (b = true <-> P q).
  Proof using W S.
    intros T P k b q G SH K V H. unfold contains in H.
    assert (F : Forall (key t) (bucket T (slot h (buckets T) k))).
    { destruct G as [PG G]. apply G. now apply slot_lt. }
    rewrite (find_keys k _ b K F H), (SH q). split.
    - intros I. exists k. split; auto. exists q. split; auto. reflexivity.
    - intros (v & HV & IV). assert (v = k) as <-; [|exact HV].
      apply (is_unique k v q); auto; [now apply (has_key T)|]. exists q. split; auto. reflexivity.
  Qed.

  (** Definedness for keys with small parts. *)
  Definition small (B : Z) (v : raw) : Prop := Z.abs (num v) <= B /\ Z.abs (den v) <= B.

  Lemma eq_small : forall B x k, B <= rmax t -> B * B <= rmax t -> key t x -> key t k -> small B x -> small B k ->
    exists b, f_cmp (denote o) t t Eq (RR x k) = Ok b.
  Proof using W.
    intros B x k B1 B2 (WX & _) (WK & _) SX SK. rewrite f_cmp_self.
    destruct (c12_equality_total o t (RR x k) B W) as (b & E & _); eauto; [now split|]. split; [exact SX|exact SK].
  Qed.
  Lemma find_small : forall B k l, B <= rmax t -> B * B <= rmax t -> key t k -> small B k -> Forall (key t) l -> Forall (small B) l ->
    exists b, find_in (denote o) t k l = Ok b.
  Proof using W.
    intros B k l B1 B2 K SK F FS. induction l as [|x l IH]; cbn [find_in]; [eauto|]. inversion F; inversion FS; subst.
    destruct (eq_small B x k) as [b E]; auto. rewrite E. cbn [bind]. destruct b; eauto.
  Qed.
  Lemma remove_small : forall B k l, B <= rmax t -> B * B <= rmax t -> key t k -> small B k -> Forall (key t) l -> Forall (small B) l ->
    exists l', remove_in (denote o) t k l = Ok l'.
  Proof using W.
    intros B k l B1 B2 K SK F FS. induction l as [|x l IH]; cbn [remove_in]; [eauto|]. inversion F; inversion FS; subst.
    destruct (eq_small B x k) as [b E]; auto. rewrite E. cbn [bind]. destruct b; eauto.
    destruct IH as [l' ->]; auto. cbn [bind]. eauto.
  Qed.
  Definition all_small (B : Z) (T : table) : Prop := forall v, has T v -> small B v.

  Theorem act_total : forall B l T P, B <= rmax t -> B * B <= rmax t -> good T -> shows T P -> all_small B T ->
    Forall (keys t) l -> Forall (small_keys B) l ->
    exists T', act_all h (denote o) t T l = Ok T' /\ all_small B T'.
  Proof using W S.
    intros B l. induction l as [|a l IH]; intros T P B1 B2 G SH AS F FS; cbn [act_all]; [eauto|].
    inversion F; inversion FS; subst.
    assert (ONE : exists T', act h (denote o) t T a = Ok T').
    { destruct a as [v|v|n]; cbn [act].
      - destruct G as [PG G]. destruct (G (slot h (buckets T) v)) as (_ & FK & SL); [now apply slot_lt|].
        destruct (find_small B v (bucket T (slot h (buckets T) v))) as [b E]; auto.
        { apply Forall_forall. intros x X. apply AS. unfold has. now rewrite (SL x X). }
        unfold insert, contains. rewrite E. cbn [bind]. eauto.
      - destruct G as [PG G]. destruct (G (slot h (buckets T) v)) as (_ & FK & SL); [now apply slot_lt|].
        destruct (remove_small B v (bucket T (slot h (buckets T) v))) as [b E]; auto.
        { apply Forall_forall. intros x X. apply AS. unfold has. now rewrite (SL x X). }
        unfold erase. rewrite E. cbn [bind]. eauto.
      - eauto. }
    destruct ONE as [T' E]. rewrite E. cbn [bind]. destruct (act_good T P a T' G SH) as [G' SH']; auto.
    apply (IH T' (after P a)); auto. intros v HV.
    destruct a as [x|x|n]; cbn [act keys] in *.
    - apply (insert_good T x T' G) in HV as [HV| ->]; auto.
    - apply (erase_good T x T' G) in HV as [HV _]; auto.
    - injection E as <-. apply (rehash_good T n G) in HV. auto.
  Qed.
End Tables.
