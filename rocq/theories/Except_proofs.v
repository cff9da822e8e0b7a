(** Proofs about streams with exception masks. *)

From Coq Require Import ZArith List Bool Lia.
From Verif Require Import Machine Raw Stream Stream_spec Except Except_spec.
From Verif Require Import Machine_proofs Stream_proofs.
Import ListNotations.
Open Scope Z_scope.

(** State bits, once set, stay set. *)
Definition more (s s' : istream) : Prop :=
  (failbit s = true -> failbit s' = true) /\ (eofbit s = true -> eofbit s' = true).

Lemma more_get_int : forall t s old, more s (fst (get_int t s old)).
Proof.
  intros t [u f e] old. unfold get_int, sentry, good, more, set_fail. cbn [failbit eofbit unread].
  destruct f, e; cbn; auto. split; discriminate.
Qed.

Lemma more_ignore : forall s, more s (ignore_slash s).
Proof.
  intros [u f e]. unfold ignore_slash, good, more, set_fail. cbn [failbit eofbit unread].
  destruct f, e; cbn; auto; try (split; discriminate).
Qed.

Lemma quiet_back : forall m s s', more s s' -> quiet m s' -> quiet m s.
Proof.
  intros m s s' [A B] [C D]. split; intros H.
  - destruct (failbit s) eqn:E; auto. rewrite A in C by auto. now apply C.
  - destruct (eofbit s) eqn:E; auto. rewrite B in D by auto. now apply D.
Qed.

Lemma after_input_quiet : forall A m (r : istream * A), quiet m (fst r) -> after_input m r = Returned r.
Proof.
  intros A m r [F G]. unfold after_input.
  destruct (on_fail m), (on_eof m); cbn; rewrite ?F, ?G by auto; reflexivity.
Qed.

Lemma after_input_inv : forall A m (r r' : istream * A), after_input m r = Returned r' -> r' = r /\ quiet m (fst r).
Proof.
  intros A m r r' H. unfold after_input in H.
  destruct ((on_fail m && failbit (fst r)) || (on_eof m && eofbit (fst r))) eqn:E; [discriminate|].
  inversion H; subst. split; auto. apply orb_false_iff in E as [P Q].
  split; intros K; rewrite K in *; auto.
Qed.

Theorem get_raw_ex_same : forall m t s old r,
  get_raw_ex m t s old = Returned r <-> get_raw t s old = r /\ quiet m (fst r).
Proof.
  intros m t s old r. unfold get_raw_ex, get_raw.
  destruct (get_int t s (num old)) as [s1 n] eqn:E1.
  destruct (get_int t (ignore_slash s1) (den old)) as [s3 d] eqn:E3. split.
  - intros H. destruct (after_input m (s1, n)) as [r1|] eqn:A1; [|discriminate].
    apply after_input_inv in A1 as [-> Q1]. cbn [and_then fst snd] in H.
    destruct (after_input m (ignore_slash s1, tt)) as [r2|] eqn:A2; [|discriminate].
    apply after_input_inv in A2 as [-> Q2]. cbn [and_then fst snd] in H. rewrite E3 in H.
    destruct (after_input m (s3, d)) as [r3|] eqn:A3; [|discriminate].
    apply after_input_inv in A3 as [-> Q3]. cbn [and_then fst snd] in H. inversion H; subst. auto.
  - intros [<- Q]. cbn [fst] in Q.
    assert (Q2 : quiet m (ignore_slash s1)).
    { apply (quiet_back m _ s3); auto. pose proof (more_get_int t (ignore_slash s1) (den old)) as M. now rewrite E3 in M. }
    assert (Q1 : quiet m s1) by (apply (quiet_back m _ (ignore_slash s1)); auto using more_ignore).
    rewrite after_input_quiet by auto. cbn [and_then fst snd].
    rewrite after_input_quiet by auto. cbn [and_then fst snd]. rewrite E3.
    rewrite after_input_quiet by auto. reflexivity.
Qed.

Lemma ended_dec : forall A (x : ended A), (exists a, x = Returned a) \/ x = Terminated.
Proof. intros A [a|]; eauto. Qed.

Theorem get_raw_ex_ok : forall m t text v rest old, numeric t -> fraction_text t text v rest ->
  (on_eof m = true -> rest <> []) ->
  get_raw_ex m t (mkIn text false false) old = Returned (mkIn rest false (match rest with [] => true | _ => false end), v).
Proof.
  intros m t text v rest old W T N. apply get_raw_ex_same. rewrite (get_raw_ok t text v rest old) by auto.
  split; [reflexivity|]. cbn. split; auto. intros H. destruct rest; auto. now apply N in H.
Qed.

Theorem get_raw_ex_returns : forall m t text old, numeric t -> on_fail m = true ->
  ((exists r, get_raw_ex m t (mkIn text false false) old = Returned r) <->
   exists v rest, fraction_text t text v rest /\ (on_eof m = true -> rest <> [])).
Proof.
  intros m t text old W F. split.
  - intros [[s v] H]. apply get_raw_ex_same in H as [H [Q1 Q2]]. cbn [fst] in *.
    apply get_raw_inv in H as [_ [_ [T E]]]; auto. cbn [unread] in T. exists v, (unread s). split; auto.
    intros K. rewrite Q2 in E by auto. intros Z. rewrite Z in E. discriminate.
  - intros [v [rest [T N]]]. eexists. apply get_raw_ex_ok; eauto.
Qed.

Theorem get_raw_ex_eof : forall m t v old, numeric t -> wf_raw t v -> on_eof m = true ->
  get_raw_ex m t (mkIn (put_raw v) false false) old = Terminated.
Proof.
  intros m t v old W R E. destruct (ended_dec _ (get_raw_ex m t (mkIn (put_raw v) false false) old)) as [[r H]|]; auto.
  apply get_raw_ex_same in H as [H [_ Q]]. pose proof (round_trip t v [] old R I) as RT.
  rewrite app_nil_r in RT. rewrite RT in H. subst r. cbn in Q. specialize (Q E). discriminate.
Qed.

Lemma get_raw_blanks : forall t b old, Forall blank b ->
  get_raw t (mkIn b false false) old = (mkIn [] true true, old).
Proof.
  intros t b old B. assert (S : skip_spaces b = []).
  { rewrite <- (app_nil_r b). now rewrite skip_spaces_app. }
  unfold get_raw, get_int, sentry, good. cbn [failbit eofbit negb andb unread]. rewrite S. now destruct old.
Qed.

Theorem get_raw_ex_blanks : forall m t b old, Forall blank b -> on_fail m || on_eof m = true ->
  get_raw_ex m t (mkIn b false false) old = Terminated.
Proof.
  intros m t b old B O. destruct (ended_dec _ (get_raw_ex m t (mkIn b false false) old)) as [[r H]|]; auto.
  apply get_raw_ex_same in H as [H [Q1 Q2]]. rewrite get_raw_blanks in H by auto. subst r. cbn in *.
  apply orb_true_iff in O as [O|O]; [specialize (Q1 O)|specialize (Q2 O)]; discriminate.
Qed.

Lemma blank_no_digit : forall s r, s <> [] -> Forall blank s -> no_digit_first (s ++ r).
Proof. intros [|c s] r N B; [contradiction|]. inversion B; subst. cbn. unfold blank, decimal in *. lia. Qed.

Theorem get_all_ex_ok : forall m t sep vs old, numeric t -> sep <> [] -> Forall blank sep -> Forall (wf_raw t) vs ->
  exists s, get_all_ex m t (length vs) (mkIn (put_all sep vs) false false) old = Returned (s, vs) /\
    failbit s = false /\ eofbit s = false /\ Forall blank (unread s).
Proof.
  intros m t sep vs old W NS B.
  assert (G : forall vs b, Forall blank b -> Forall (wf_raw t) vs ->
    exists s, get_all_ex m t (length vs) (mkIn (b ++ put_all sep vs) false false) old = Returned (s, vs) /\
      failbit s = false /\ eofbit s = false /\ Forall blank (unread s)).
  { clear vs. induction vs as [|v vs IH]; intros b Bb R.
    - cbn. rewrite app_nil_r. eexists. split; [reflexivity|]. cbn. auto.
    - inversion R; subst. cbn [put_all length get_all_ex].
      assert (NE : sep ++ put_all sep vs <> []) by (destruct sep; [contradiction|discriminate]).
      rewrite (get_raw_ex_ok m t _ v (sep ++ put_all sep vs)); auto.
      2:{ apply fraction_text_blanks; auto. apply put_raw_text; auto. now apply blank_no_digit. }
      destruct (IH sep B H2) as [s [E K]].
      destruct (sep ++ put_all sep vs) as [|c l] eqn:Z; [contradiction|].
      cbn [and_then fst snd]. rewrite E. cbn [and_then fst snd]. exists s. auto. }
  intros R. apply (G vs [] ltac:(constructor) R).
Qed.

Theorem get_all_ex_one_more : forall m t sep vs old, numeric t -> sep <> [] -> Forall blank sep -> Forall (wf_raw t) vs ->
  on_fail m || on_eof m = true ->
  get_all_ex m t (S (length vs)) (mkIn (put_all sep vs) false false) old = Terminated.
Proof.
  intros m t sep vs old W NS B R O.
  assert (G : forall n s rs, get_all_ex m t n s old = Returned rs ->
    get_raw_ex m t (fst rs) old = Terminated -> get_all_ex m t (S n) s old = Terminated).
  { induction n as [|n IH]; intros s rs H K.
    - cbn in H. inversion H; subst. cbn [fst] in K. cbn [get_all_ex]. now rewrite K.
    - cbn [get_all_ex] in H. destruct (get_raw_ex m t s old) as [r|] eqn:E1; [|discriminate].
      cbn [and_then] in H. destruct (get_all_ex m t n (fst r) old) as [rs'|] eqn:E2; [|discriminate].
      cbn [and_then] in H. inversion H; subst. cbn [fst] in K.
      change (get_all_ex m t (S (S n)) s old) with
        (and_then (get_raw_ex m t s old) (fun r => and_then (get_all_ex m t (S n) (fst r) old)
           (fun rs => Returned (fst rs, snd r :: snd rs)))).
      rewrite E1. cbn [and_then]. now rewrite (IH (fst r) rs' E2 K). }
  destruct (get_all_ex_ok m t sep vs old W NS B R) as [[u f e] [E [F1 [F2 F3]]]].
  eapply G; eauto. cbn [fst]. cbn in F1, F2, F3. subst. now apply get_raw_ex_blanks.
Qed.

(** Writing. *)
Definition clean (s : ostream) : Prop := ofailbit s = false /\ obadbit s = false.

Lemma after_output_inv : forall m s s', after_output m s = Returned s' ->
  s' = s /\ (on_bad m = true -> obadbit s = false).
Proof.
  intros m s s' H. unfold after_output in H.
  destruct ((on_fail m && ofailbit s) || (on_bad m && obadbit s)) eqn:E; [discriminate|].
  inversion H; subst. split; auto. intros K. rewrite K in E. now apply orb_false_iff in E as [_ E].
Qed.

Lemma after_output_clean : forall m s, clean s -> after_output m s = Returned s.
Proof. intros m s [A B]. unfold after_output. rewrite A, B, !andb_false_r. reflexivity. Qed.

(** A stream after the text [cs], from [s]. *)
Definition wrote (s : ostream) (cs : list Z) (s' : ostream) : Prop :=
  written s' = written s ++ firstn (room s) cs /\ room s' = (room s - length cs)%nat /\
  (obadbit s' = true <-> (room s < length cs)%nat) /\ (obadbit s' = false -> ofailbit s' = false).

Lemma put_text_wrote : forall m q s cs s', clean s -> put_text m q s cs = Returned s' -> wrote s cs s'.
Proof.
  intros m q s cs s' [A B] H. unfold put_text in H. rewrite A, B in H. cbn [orb] in H.
  destruct (Nat.leb (length cs) (room s)) eqn:L.
  - apply after_output_inv in H as [-> _]. apply Nat.leb_le in L. split; [|split; [|split]]; cbn; auto.
    + now rewrite firstn_all2.
    + split; [discriminate|lia].
  - apply after_output_inv in H as [-> _]. apply Nat.leb_gt in L. split; [|split; [|split]]; cbn; auto.
    + lia.
    + tauto.
Qed.

Lemma put_text_more : forall m q s0 s cs ds s', wrote s0 cs s -> put_text m q s ds = Returned s' -> wrote s0 (cs ++ ds) s'.
Proof.
  intros m q s0 s cs ds s' [W [R [B C]]] H. destruct (obadbit s) eqn:E.
  - assert (L : (room s0 < length cs)%nat) by now apply B.
    unfold put_text in H. rewrite E, orb_true_r in H. apply after_output_inv in H as [-> _].
    split; [|split; [|split]]; cbn.
    + rewrite W, firstn_app. replace (room s0 - length cs)%nat with O by lia. cbn. now rewrite app_nil_r.
    + rewrite R, app_length. lia.
    + rewrite app_length. split; auto. lia.
    + discriminate.
  - assert (L : (length cs <= room s0)%nat) by (destruct (Nat.ltb_spec (room s0) (length cs)); auto; apply B in H0; discriminate).
    apply put_text_wrote in H; [|split; auto]. destruct H as [W' [R' [B' C']]].
    split; [|split; [|split]]; auto.
    + rewrite W', W, R, firstn_app, <- app_assoc. now rewrite firstn_all2 by auto.
    + rewrite R', R, app_length. lia.
    + rewrite B', R, app_length. lia.
Qed.

Theorem put_raw_ex_wrote : forall m q s v s', clean s -> put_raw_ex m q s v = Returned s' -> wrote s (put_raw v) s'.
Proof.
  intros m q s v s' C H. unfold put_raw_ex in H.
  destruct (put_text m q s (put_int (num v))) as [s1|] eqn:E1; [|discriminate]. cbn [and_then] in H.
  destruct (put_text m q s1 [47]) as [s2|] eqn:E2; [|discriminate]. cbn [and_then] in H.
  apply put_text_wrote in E1; auto. eapply put_text_more in E2; eauto. eapply put_text_more in H; eauto.
  unfold put_raw. now rewrite <- app_assoc in H.
Qed.

Lemma put_text_room : forall m q s cs, clean s -> (length cs <= room s)%nat ->
  put_text m q s cs = Returned (mkOut (written s ++ cs) (room s - length cs) false false).
Proof.
  intros m q s cs [A B] L. unfold put_text. rewrite A, B. cbn [orb]. apply Nat.leb_le in L. rewrite L.
  apply after_output_clean. split; reflexivity.
Qed.

Theorem put_raw_ex_room : forall m q s v, clean s -> (length (put_raw v) <= room s)%nat ->
  put_raw_ex m q s v = Returned (mkOut (written s ++ put_raw v) (room s - length (put_raw v)) false false).
Proof.
  intros m q s v C L. unfold put_raw_ex, put_raw in *. rewrite !app_length in L. cbn [length] in L.
  rewrite put_text_room by (auto; lia). cbn [and_then].
  rewrite put_text_room by (cbn; try split; auto; lia). cbn [and_then].
  rewrite put_text_room by (cbn; try split; auto; lia). cbn [written room].
  rewrite <- !app_assoc, !app_length. cbn [length]. do 2 f_equal. lia.
Qed.

Lemma put_text_quiet : forall m q s cs, on_fail m = false -> on_bad m = false -> exists s', put_text m q s cs = Returned s'.
Proof.
  intros m q s cs A B. unfold put_text, after_output. rewrite A, B. cbn [andb orb].
  destruct (ofailbit s || obadbit s); eauto. destruct (Nat.leb (length cs) (room s)); eauto.
Qed.

Theorem put_raw_ex_quiet : forall m q s v, on_fail m = false -> on_bad m = false -> exists s', put_raw_ex m q s v = Returned s'.
Proof.
  intros m q s v A B. unfold put_raw_ex.
  destruct (put_text_quiet m q s (put_int (num v)) A B) as [s1 ->]. cbn [and_then].
  destruct (put_text_quiet m q s1 [47] A B) as [s2 ->]. cbn [and_then]. now apply put_text_quiet.
Qed.

Lemma put_text_bad : forall m q s cs s', on_bad m = true -> clean s -> put_text m q s cs = Returned s' -> clean s'.
Proof.
  intros m q s cs s' O [A B] H. unfold put_text in H. rewrite A, B in H. cbn [orb] in H.
  destruct (Nat.leb (length cs) (room s)); apply after_output_inv in H as [-> K]; split; auto.
Qed.

Theorem put_raw_ex_full : forall m q s v, clean s -> on_bad m = true -> (room s < length (put_raw v))%nat ->
  put_raw_ex m q s v = Terminated.
Proof.
  intros m q s v C O L. destruct (ended_dec _ (put_raw_ex m q s v)) as [[s' H]|]; auto. exfalso.
  assert (K : clean s').
  { unfold put_raw_ex in H.
    destruct (put_text m q s (put_int (num v))) as [s1|] eqn:E1; [|discriminate]. cbn [and_then] in H.
    destruct (put_text m q s1 [47]) as [s2|] eqn:E2; [|discriminate]. cbn [and_then] in H.
    eauto using put_text_bad. }
  apply put_raw_ex_wrote in H as [_ [_ [B _]]]; auto. apply B in L. destruct K as [_ K]. rewrite K in L. discriminate.
Qed.

(** A text cut short. *)
Lemma decimal_value_snoc : forall ds c, decimal_value (ds ++ [c]) = 10 * decimal_value ds + (c - 48).
Proof.
  induction ds as [|d ds IH]; intros c; cbn [app decimal_value length].
  - cbn. lia.
  - rewrite IH, app_length. cbn [length]. rewrite Nat2Z.inj_add, Z.pow_add_r by lia. change (10 ^ Z.of_nat 1) with 10. ring.
Qed.

Lemma digits_cut : forall ds, Forall decimal ds -> 10 <= decimal_value ds ->
  exists ds' c, ds = ds' ++ [c] /\ ds' <> [] /\ Forall decimal ds' /\ decimal_value ds' = decimal_value ds / 10.
Proof.
  intros ds F L. destruct (exists_last (l := ds)) as [ds' [c E]]; [intros ->; cbn in L; lia|].
  exists ds', c. subst ds. rewrite decimal_value_snoc in *. apply Forall_app in F as [F1 F2]. inversion F2; subst.
  unfold decimal in H1. split; auto. split; [intros ->; cbn in L; lia|]. split; auto.
  apply Z.div_unique with (c - 48); lia.
Qed.

Lemma put_int_cut : forall z, 10 <= Z.abs z -> exists s c, put_int z = s ++ [c] /\ numeral s (z <? 0) (Z.abs z / 10).
Proof.
  intros z L. pose proof (put_int_numeral z) as N. inversion N as [ds A B E1 E2 E3|ds A B E1 E2 E3|ds A B E1 E2 E3]; rewrite <- E3 in L.
  - destruct (digits_cut _ B L) as [ds' [c [-> [P [Q R]]]]]. exists ds', c. split; auto. rewrite <- R. now constructor.
  - destruct (digits_cut _ B L) as [ds' [c [-> [P [Q R]]]]]. exists (43 :: ds'), c. split; auto. rewrite <- R. now constructor.
  - destruct (digits_cut _ B L) as [ds' [c [-> [P [Q R]]]]]. exists (45 :: ds'), c. split; auto. rewrite <- R. now constructor.
Qed.

Theorem truncated_reads : forall t v old, numeric t -> wf_raw t v -> 10 <= Z.abs (den v) ->
  get_raw t (mkIn (firstn (length (put_raw v) - 1) (put_raw v)) false false) old =
    (mkIn [] false true, mkRaw (num v) (Z.quot (den v) 10)).
Proof.
  intros t v old W [A B] L. destruct (put_int_cut (den v) L) as [s [c [E N]]].
  apply (get_raw_ok t _ (mkRaw (num v) (Z.quot (den v) 10)) []); auto.
  exists [], (put_int (num v)), [], [], s. cbn [app num den].
  assert (T : put_raw v = (put_int (num v) ++ 47 :: s) ++ [c]).
  { unfold put_raw. rewrite E, <- !app_assoc. reflexivity. }
  rewrite T, app_length. cbn [length]. set (u := put_int (num v) ++ 47 :: s) in *.
  replace (length u + 1 - 1)%nat with (length u + 0)%nat by lia. rewrite firstn_app_2. cbn [firstn]. rewrite !app_nil_r.
  repeat split; auto; try (now apply put_int_reads).
  exists (den v <? 0), (Z.abs (den v) / 10). split; auto.
  apply in_rep_iff in B. pose proof (numeric_rmin t W) as M0. pose proof (numeric_rmax t W) as M1.
  assert (P : 0 <= Z.abs (den v) / 10 <= Z.abs (den v)).
  { split; [apply Z.div_pos; lia|]. apply Z.div_le_upper_bound; lia. }
  assert (Q : Z.quot (den v) 10 = (if den v <? 0 then - (Z.abs (den v) / 10) else Z.abs (den v) / 10)).
  { destruct (den v <? 0) eqn:D.
    - apply Z.ltb_lt in D. replace (den v) with (- Z.abs (den v)) at 1 by lia.
      rewrite Z.quot_opp_l by lia. now rewrite Z.quot_div_nonneg by lia.
    - apply Z.ltb_ge in D. replace (den v) with (Z.abs (den v)) at 1 by lia. now rewrite Z.quot_div_nonneg by lia. }
  destruct (rsigned t) eqn:S.
  - split; auto. rewrite Q. destruct (den v <? 0) eqn:D; [apply Z.ltb_lt in D|apply Z.ltb_ge in D]; lia.
  - rewrite (rmin_unsigned t S) in B. assert (D : den v <? 0 = false) by (apply Z.ltb_ge; lia). rewrite D in *.
    split; [lia|]. rewrite Q. symmetry. apply Z.mod_small.
    unfold rmax in B. rewrite S in B. lia.
Qed.

(** The state after writing. *)
Lemma and_then_inv : forall A B (x : ended A) (k : A -> ended B) r, and_then x k = Returned r -> exists a, x = Returned a /\ k a = Returned r.
Proof. intros A B [a|] k r H; [|discriminate H]. exists a. split; auto. Qed.

Lemma put_text_failed : forall m q s cs s', ofailbit s || obadbit s = true -> put_text m q s cs = Returned s' ->
  s' = mkOut (written s) (room s) (ofailbit s || q) (obadbit s).
Proof. intros m q s cs s' A H. unfold put_text in H. rewrite A in H. now apply after_output_inv in H as [-> _]. Qed.

Theorem put_raw_ex_failed : forall m q s v s', ofailbit s || obadbit s = true -> put_raw_ex m q s v = Returned s' ->
  s' = mkOut (written s) (room s) (ofailbit s || q) (obadbit s).
Proof.
  intros m q s v s' A H. unfold put_raw_ex in H. apply and_then_inv in H as [s1 [H1 H]]. apply and_then_inv in H as [s2 [H2 H]].
  apply put_text_failed in H1; [|exact A]. subst s1.
  assert (A1 : (ofailbit s || q) || obadbit s = true) by (destruct (ofailbit s), q, (obadbit s); auto; discriminate A).
  apply put_text_failed in H2; [|exact A1]. cbn in H2. subst s2.
  apply put_text_failed in H.
  2: { cbn. destruct (ofailbit s), q, (obadbit s); auto; discriminate A. }
  subst s'. cbn. f_equal. destruct (ofailbit s), q; reflexivity.
Qed.

Lemma put_text_clean : forall m q s cs s', clean s -> put_text m q s cs = Returned s' ->
  s' = mkOut (written s ++ firstn (room s) cs) (room s - length cs) false (negb (Nat.leb (length cs) (room s))).
Proof.
  intros m q s cs s' [A B] H. unfold put_text in H. rewrite A, B in H. cbn [orb] in H.
  destruct (Nat.leb (length cs) (room s)) eqn:L; apply after_output_inv in H as [-> _].
  - apply Nat.leb_le in L. rewrite firstn_all2 by lia. reflexivity.
  - apply Nat.leb_gt in L. replace (room s - length cs)%nat with O by lia. reflexivity.
Qed.

Theorem put_raw_ex_state : forall m q s v s', ofailbit s = false -> obadbit s = false -> put_raw_ex m q s v = Returned s' ->
  room s' = (room s - length (put_raw v))%nat /\
  (ofailbit s' = true <-> q = true /\ (room s <= length (put_int (num v)))%nat).
Proof.
  intros m q s v s' A B H. unfold put_raw_ex in H. apply and_then_inv in H as [s1 [H1 H]]. apply and_then_inv in H as [s2 [H2 H]].
  unfold put_raw. rewrite !app_length. cbn [length].
  apply put_text_clean in H1; [|split; auto].
  destruct (Nat.leb (length (put_int (num v))) (room s)) eqn:L; cbn [negb] in H1.
  - apply Nat.leb_le in L. apply put_text_clean in H2; [|subst s1; split; reflexivity].
    subst s1. cbn [room written length] in H2.
    destruct (Nat.leb 1 (room s - length (put_int (num v)))) eqn:L1; cbn [negb] in H2.
    + apply Nat.leb_le in L1. apply put_text_clean in H; [|subst s2; split; reflexivity]. subst s' s2. cbn [room ofailbit]. split; [lia|].
      split; [discriminate|lia].
    + apply Nat.leb_gt in L1. apply put_text_failed in H; [|subst s2; reflexivity]. subst s' s2. cbn [room ofailbit orb]. split; [lia|].
      split; [intros ->; split; [reflexivity|lia]|tauto].
  - apply Nat.leb_gt in L. apply put_text_failed in H2; [|subst s1; reflexivity]. subst s1. cbn [room ofailbit obadbit written orb] in H2.
    apply put_text_failed in H; [|subst s2; cbn; apply orb_true_r]. subst s' s2. cbn [room ofailbit orb]. split; [lia|].
    destruct q; cbn; split; try tauto; try discriminate; intros _; split; auto; lia.
Qed.
