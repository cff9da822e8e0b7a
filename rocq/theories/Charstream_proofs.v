(** Proofs about streams of fractions of character types. *)

From Coq Require Import ZArith List Bool Lia.
From Verif Require Import Machine Raw Stream Stream_spec Charstream Charstream_spec.
From Verif Require Import Machine_proofs Stream_proofs.
Import ListNotations.
Open Scope Z_scope.

Lemma is_char_code : forall z, is_char z (char_code z).
Proof.
  intros z. unfold is_char, char_code. pose proof (Z.mod_pos_bound z 256 ltac:(lia)). split; auto.
  exists (z / 256). pose proof (Z.div_mod z 256 ltac:(lia)). lia.
Qed.

Lemma is_char_unique : forall z c, is_char z c -> c = char_code z.
Proof.
  intros z c [A [k ->]]. unfold char_code. rewrite Z.mul_comm, Z.mod_add by lia. symmetry. now apply Z.mod_small.
Qed.

(** A value of the type and the character are determined by one another. *)
Lemma char_cast : forall t c, character t -> 0 <= c < 256 -> in_rep t (cast t c) = true /\ is_char (cast t c) c.
Proof.
  intros [s b] c E C. unfold character in E. cbn in E. subst b.
  assert (P : 2 ^ 8 = 256) by reflexivity. assert (P' : 2 ^ (8 - 1) = 128) by reflexivity.
  unfold in_rep, rmin, rmax, cast, wrap. cbn [rsigned rbits]. destruct s; rewrite ?P, ?P'.
  - pose proof (Z.mod_pos_bound (c + 128) 256 ltac:(lia)). pose proof (Z.div_mod (c + 128) 256 ltac:(lia)).
    split; [apply andb_true_intro; split; apply Z.leb_le; lia|]. split; auto. exists (- ((c + 128) / 256)). lia.
  - pose proof (Z.mod_pos_bound c 256 ltac:(lia)). pose proof (Z.div_mod c 256 ltac:(lia)).
    split; [apply andb_true_intro; split; apply Z.leb_le; lia|]. split; auto. exists (- (c / 256)). lia.
Qed.

Lemma is_char_inj : forall t z w c, character t -> in_rep t z = true -> in_rep t w = true ->
  is_char z c -> is_char w c -> z = w.
Proof.
  intros [s b] z w c E A B [_ [k ->]] [_ [j ->]]. unfold character in E. cbn in E. subst b.
  apply in_rep_iff in A, B. unfold rmin, rmax in *. cbn [rsigned rbits] in *.
  change (2 ^ 8) with 256 in *. change (2 ^ (8 - 1)) with 128 in *. destruct s; lia.
Qed.

Lemma cast_char : forall t z c, character t -> in_rep t z = true -> is_char z c -> cast t c = z.
Proof.
  intros t z c E A K. destruct (char_cast t c E) as [B L]; [apply K|]. eapply is_char_inj; eauto.
Qed.

Lemma get_char_ok : forall t b c z r old, character t -> Forall blank b -> ~ blank c -> in_rep t z = true -> is_char z c ->
  get_char t (mkIn (b ++ [c] ++ r) false false) old = (mkIn r false false, z).
Proof.
  intros t b c z r old E B N A K. unfold get_char, sentry, good. cbn [failbit eofbit negb andb unread].
  rewrite skip_spaces_app by (auto; cbn; auto). cbn [app unread]. now rewrite (cast_char t z c).
Qed.

Lemma get_char_inv : forall t s old s' z, character t -> codes_only (unread s) -> get_char t s old = (s', z) -> failbit s' = false ->
  failbit s = false /\ eofbit s = false /\ eofbit s' = false /\
  exists b c, unread s = b ++ [c] ++ unread s' /\ Forall blank b /\ ~ blank c /\ is_char z c /\ in_rep t z = true.
Proof.
  intros t [u f e] old s' z C CO H F. unfold get_char, sentry, good in H. cbn [failbit eofbit unread] in *.
  destruct f, e; cbn [negb andb] in H; try (inversion H; subst; cbn in F; discriminate).
  destruct (skip_spaces_inv u) as [b [A [B D]]].
  destruct (skip_spaces u) as [|c r] eqn:E; [inversion H; subst; discriminate|].
  cbn [unread] in H. injection H as <- <-. cbn [unread eofbit]. repeat split; auto.
  assert (R : 0 <= c < 256).
  { unfold codes_only in CO. rewrite Forall_forall in CO. apply CO. rewrite A. apply in_or_app. right. now left. }
  destruct (char_cast t c C R) as [I K]. exists b, c. rewrite A at 1. auto.
Qed.

Theorem get_raw_char_ok : forall t text v rest old, character t -> char_text t text v rest ->
  get_raw_char t (mkIn text false false) old = (mkIn rest false false, v).
Proof.
  intros t text v rest old C (b1 & n & mid & b2 & d & -> & B1 & N1 & K1 & M & B2 & N2 & K2 & [A B]).
  unfold get_raw_char. rewrite (get_char_ok t b1 n (num v)) by auto.
  unfold ignore_slash, good. cbn [failbit eofbit negb andb unread app]. rewrite after_slash_app by auto.
  pose proof (get_char_ok t b2 d (den v) rest (den old) C B2 N2 B K2) as G. cbn [app] in G. rewrite G. now destruct v.
Qed.

Theorem get_raw_char_inv : forall t s old s' v, character t -> codes_only (unread s) ->
  get_raw_char t s old = (s', v) -> failbit s' = false ->
  failbit s = false /\ eofbit s = false /\ char_text t (unread s) v (unread s').
Proof.
  intros t s old s' v C CO H F. unfold get_raw_char in H.
  destruct (get_char t s (num old)) as [s1 n] eqn:E1.
  destruct (get_char t (ignore_slash s1) (den old)) as [s3 d] eqn:E3. inversion H; subst. clear H.
  assert (G1 : failbit s1 = false /\ eofbit s1 = false /\ exists mid, unread s1 = mid ++ 47 :: unread (ignore_slash s1) /\ ~ In 47 mid).
  { unfold ignore_slash in *. destruct (good s1) eqn:GD.
    - unfold good in GD. apply andb_true_iff in GD as [G1 G2]. apply negb_true_iff in G1, G2.
      destruct (after_slash (unread s1)) as [r|] eqn:AS.
      + apply after_slash_inv in AS. auto.
      + unfold get_char, sentry, good in E3. cbn in E3. inversion E3; subst. discriminate.
    - unfold get_char, sentry, good, set_fail in E3. cbn in E3. inversion E3; subst. discriminate. }
  destruct G1 as [F1 [_ [mid [M1 M2]]]].
  apply get_char_inv in E1 as [F0 [G0 [_ [b1 [c1 [A1 [B1 [N1 [K1 I1]]]]]]]]]; auto.
  assert (CO2 : codes_only (unread (ignore_slash s1))).
  { unfold codes_only in *. rewrite A1, M1 in CO. apply Forall_app in CO as [_ CO]. apply Forall_app in CO as [_ CO].
    apply Forall_app in CO as [_ CO]. now inversion CO. }
  apply get_char_inv in E3 as [_ [_ [_ [b2 [c2 [A2 [B2 [N2 [K2 I2]]]]]]]]]; auto.
  repeat split; auto. exists b1, c1, mid, b2, c2. cbn [num den]. rewrite A1, M1, A2. repeat split; auto.
  - now destruct K1.
  - now destruct K1.
  - now destruct K1.
  - now destruct K2.
  - now destruct K2.
  - now destruct K2.
Qed.

Theorem put_raw_char_text : forall t v rest, wf_raw t v -> ~ blank (char_code (num v)) -> ~ blank (char_code (den v)) ->
  char_text t (put_raw_char v ++ rest) v rest.
Proof.
  intros t v rest A N D. exists [], (char_code (num v)), [], [], (char_code (den v)). unfold put_raw_char.
  cbn [app]. repeat split; auto; try apply is_char_code; apply A.
Qed.

Lemma codes_put : forall v rest, codes_only rest -> codes_only (put_raw_char v ++ rest).
Proof.
  intros v rest C. unfold codes_only, put_raw_char in *. cbn [app].
  pose proof (proj1 (is_char_code (num v))). pose proof (proj1 (is_char_code (den v))).
  repeat (constructor; try lia). auto.
Qed.

Theorem char_round_trip_iff : forall t v rest old, character t -> wf_raw t v -> codes_only rest ->
  (get_raw_char t (mkIn (put_raw_char v ++ rest) false false) old = (mkIn rest false false, v) <->
   ~ blank (char_code (num v)) /\ ~ blank (char_code (den v))).
Proof.
  intros t v rest old C A CO. split.
  - intros H. apply get_raw_char_inv in H as [_ [_ H]]; auto; [|cbn; now apply codes_put]. cbn [unread] in H.
    destruct H as (b1 & n & mid & b2 & d & E & B1 & N1 & K1 & M & B2 & N2 & K2 & W).
    apply is_char_unique in K1, K2. subst. auto.
  - intros [N D]. apply get_raw_char_ok; auto. now apply put_raw_char_text.
Qed.

Theorem put_raw_char_inj : forall t v w, character t -> wf_raw t v -> wf_raw t w -> put_raw_char v = put_raw_char w -> v = w.
Proof.
  intros t v w C [A B] [A' B'] E. unfold put_raw_char in E. inversion E as [[E1 E2]].
  pose proof (is_char_code (num v)) as K1. pose proof (is_char_code (den v)) as K2.
  pose proof (is_char_code (num w)) as L1. pose proof (is_char_code (den w)) as L2.
  rewrite <- E1 in L1. rewrite <- E2 in L2. destruct v as [n d], w as [n' d']. cbn in *.
  f_equal; eapply is_char_inj; eauto.
Qed.

(** A blank numerator is skipped, and the slash read in its place. *)
Theorem blank_numerator : forall t v rest old, character t -> blank (char_code (num v)) ->
  num (snd (get_raw_char t (mkIn (put_raw_char v ++ rest) false false) old)) = 47.
Proof.
  intros t v rest old C B. unfold get_raw_char, put_raw_char.
  assert (P : in_rep t 47 = true).
  { destruct t as [s b]. unfold character in C. cbn in C. subst b. now destruct s. }
  pose proof (get_char_ok t [char_code (num v)] 47 47 ([char_code (den v)] ++ rest) (num old) C) as G.
  rewrite <- !app_assoc. rewrite G; auto.
  - destruct (get_char t (ignore_slash _) (den old)). reflexivity.
  - unfold blank. lia.
  - split; [lia|]. exists 0. lia.
Qed.

(** A blank denominator is skipped, and what follows read in its place. *)
Theorem blank_denominator : forall t v c rest old, character t -> wf_raw t v -> ~ blank (char_code (num v)) ->
  blank (char_code (den v)) -> ~ blank c -> 0 <= c < 256 ->
  exists d, is_char d c /\ in_rep t d = true /\
  get_raw_char t (mkIn (put_raw_char v ++ [c] ++ rest) false false) old = (mkIn rest false false, mkRaw (num v) d).
Proof.
  intros t v c rest old C [A B] N BD NC R. destruct (char_cast t c C R) as [I K]. exists (cast t c). split; [exact K|]. split; [exact I|].
  apply get_raw_char_ok; auto.
  exists [], (char_code (num v)), [], [char_code (den v)], c. unfold put_raw_char. cbn [app num den].
  repeat split; auto; try apply is_char_code; now destruct K.
Qed.

(** Decimal text: the digits are characters. *)
Theorem digits_as_chars : forall t a b old, character t -> 0 <= a <= 9 -> 0 <= b <= 9 ->
  get_raw_char t (mkIn (put_raw (mkRaw a b)) false false) old = (mkIn [] false false, mkRaw (a + 48) (b + 48)).
Proof.
  intros t a b old C A B. apply get_raw_char_ok; auto.
  assert (D : forall z, 0 <= z <= 9 -> put_int z = [z + 48]).
  { intros z Z. unfold put_int. rewrite Z.abs_eq by lia. destruct (Z.ltb_spec z 0); [lia|]. cbn [put_digits].
    rewrite Z.div_small by lia. rewrite Z.mod_small by lia. change (0 =? 0) with true. cbv iota. now rewrite Z.add_comm. }
  unfold put_raw. cbn [num den]. rewrite !D by auto.
  exists [], (a + 48), [], [], (b + 48). cbn [app num den]. repeat split; auto; try (unfold blank; lia); try lia; try (exists 0; lia).
  all: destruct t as [s w]; unfold character in C; cbn in C; subst w; apply in_rep_iff; unfold rmin, rmax; cbn [rsigned rbits num den];
    change (2 ^ 8) with 256; change (2 ^ (8 - 1)) with 128; destruct s; lia.
Qed.
