(** Proofs about streams with any basefield and without skipws. *)

From Coq Require Import ZArith List Bool Lia.
From Verif Require Import Machine Raw Stream Stream_spec Format Format_spec Flags Flags_spec Machine_proofs Stream_proofs Format_proofs.
Import ListNotations.
Open Scope Z_scope.

(** ** The announced base *)

Lemma text_base_in : forall fl, text_base fl = in_base fl.
Proof. intros [[] [] [] s]; reflexivity. Qed.
Lemma written_base_out : forall fl, written_base fl = out_base fl.
Proof. intros [[] [] [] s]; reflexivity. Qed.

Lemma numeral_no_x : forall b s neg m c, numeral_in b s neg m -> b <> Hex -> In c s -> c <> 120 /\ c <> 88.
Proof.
  intros b s neg m c (sign & mark & ds & -> & SG & MK & SP) NH I. destruct (spells_int b ds m SP) as [_ DG].
  destruct MK as [->|[E _]]; [|contradiction]. cbn [app] in I. apply in_app_or in I as [I|I].
  - destruct SG as [[_ ->]|[_ [-> | ->]]]; cbn in I; lia.
  - destruct (not_x b c) as (A & B & _); auto.
Qed.

Lemma after_sign_app : forall sign r, sign = [] \/ sign = [45] \/ sign = [43] ->
  (exists c r', r = c :: r' /\ c <> 45 /\ c <> 43) -> after_sign (sign ++ r) = r.
Proof.
  intros sign r [-> | [-> | ->]] (c & r' & -> & A & B); try reflexivity.
  cbn. destruct (Z.eqb_spec c 45); [lia|]. destruct (Z.eqb_spec c 43); [lia|]. reflexivity.
Qed.

Lemma announced_ok : forall b s neg m r, numeral_in b s neg m -> announces b s ->
  (b = Oct -> forall x r', r = x :: r' -> x <> 120 /\ x <> 88) -> announced (after_sign (s ++ r)) = b.
Proof.
  intros b s neg m r N (sign & q & -> & SG & A) NX.
  destruct b.
  - destruct A as [q' ->]. rewrite <- app_assoc. rewrite after_sign_app; [|exact SG|eexists; eexists; split; [reflexivity|lia]].
    cbn [app announced]. change (48 =? 48) with true. cbv iota.
    assert (K : forall x y, q' ++ r = x :: y -> x <> 120 /\ x <> 88).
    { intros x y E. destruct q' as [|x' q']; cbn [app] in E; [now apply (NX eq_refl x y)|]. injection E as <- _.
      apply (numeral_no_x _ _ _ _ x' N); [discriminate|]. apply in_or_app. right. right. now left. }
    destruct (q' ++ r) as [|x y]; [reflexivity|]. destruct (K x y eq_refl) as [K1 K2].
    destruct (Z.eqb_spec x 120); [lia|]. destruct (Z.eqb_spec x 88); [lia|]. reflexivity.
  - destruct A as (c & q' & -> & C). rewrite <- app_assoc. rewrite after_sign_app; [|exact SG|eexists; eexists; split; [reflexivity|lia]].
    cbn [app announced]. destruct (Z.eqb_spec c 48); [lia|]. reflexivity.
  - destruct A as (x & q' & -> & X). rewrite <- app_assoc. rewrite after_sign_app; [|exact SG|eexists; eexists; split; [reflexivity|lia]].
    cbn [app announced]. change (48 =? 48) with true. cbv iota. destruct X as [-> | ->]; reflexivity.
Qed.

(** ** Reading *)

Lemma get_number_flags_ok : forall t fl s z r, numeric t -> reads_flags t fl s z r ->
  get_number_flags t fl (s ++ r) = (mkIn r false (at_end r), z).
Proof.
  intros t fl s z r W (b & R & ST & B). unfold get_number_flags. rewrite text_base_in in B.
  destruct (in_base fl) as [b'|].
  - subst b'. now apply get_number_in_ok.
  - destruct B as [A NX]. pose proof R as (neg & m & N & _). rewrite (announced_ok b s neg m r N A NX).
    now apply get_number_in_ok.
Qed.
Lemma sentry_flags_ok : forall t fl w s z r0 r, reads_flags t fl s z r0 -> Forall blank w -> (fl_skipws fl = false -> w = []) ->
  sentry_flags fl (mkIn (w ++ s ++ r) false false) = (mkIn (s ++ r) false false, true).
Proof.
  intros t fl w s z r0 r (b & (neg & m & N & _) & _) B E. unfold sentry_flags.
  destruct (fl_skipws fl); [now apply (sentry_numeral b w s neg m)|]. rewrite E by reflexivity. reflexivity.
Qed.
Lemma reads_flags_more : forall t fl s z c r r', reads_flags t fl s z (c :: r) -> reads_flags t fl s z (c :: r').
Proof.
  intros t fl s z c r r' (b & R & ST & B). exists b. split; auto. split; auto.
  destruct (text_base fl); auto. destruct B as [A NX]. split; auto. intros BO x y E. injection E as <- _. now apply (NX BO c r).
Qed.

Theorem get_raw_flags_accepts : forall t fl text v rest old, numeric t -> fraction_text_flags t fl text v rest ->
  exists e, get_raw_flags t fl (mkIn text false false) old = (mkIn rest false e, v).
Proof.
  intros t fl text v rest old W (b1 & n & mid & b2 & d & -> & B1 & B2 & SK & N & NS & D).
  exists (at_end rest). unfold get_raw_flags, get_int_flags.
  rewrite (sentry_flags_ok t fl b1 n (num v) _ _ N B1) by (intros E; now apply SK). cbn [unread].
  assert (N' : reads_flags t fl n (num v) (mid ++ [47] ++ b2 ++ d ++ rest)).
  { destruct mid as [|c mid]; cbn [app] in *; eapply reads_flags_more; exact N. }
  rewrite (get_number_flags_ok t fl n (num v) _ W N').
  replace (at_end (mid ++ [47] ++ b2 ++ d ++ rest)) with false by now destruct mid.
  unfold ignore_slash, Stream.good. cbn [failbit eofbit negb andb unread].
  change (mid ++ [47] ++ b2 ++ d ++ rest) with (mid ++ 47 :: b2 ++ d ++ rest). rewrite after_slash_app by auto.
  rewrite (sentry_flags_ok t fl b2 d (den v) _ _ D B2) by (intros E; now apply SK). cbn [unread].
  rewrite (get_number_flags_ok t fl d (den v)) by auto. now destruct v.
Qed.

(** ** Writing *)

Lemma put_base_first : forall b u fuel z acc, 0 < z < 2 ^ Z.of_nat fuel ->
  exists d ds, put_base fuel (radix b) u z acc = digit_char u d :: ds /\ 0 < d < radix b.
Proof.
  intros b u. pose proof (radix_bounds b) as RB. induction fuel as [|fuel IH]; intros z acc H; [change (2 ^ Z.of_nat 0) with 1 in H; lia|].
  cbn [put_base]. pose proof (Z.mod_pos_bound z (radix b) ltac:(lia)) as MB.
  pose proof (Z.div_mod z (radix b) ltac:(lia)) as DM.
  destruct (Z.eqb_spec (z / radix b) 0) as [E|E].
  - exists (z mod radix b), acc. split; auto. lia.
  - assert (DP : 0 <= z / radix b) by (apply Z.div_pos; lia). apply IH.
    rewrite Nat2Z.inj_succ, Z.pow_succ_r in H by lia. split; [lia|].
    apply Z.div_lt_upper_bound; [lia|]. assert (0 < 2 ^ Z.of_nat fuel) by (apply Z.pow_pos_nonneg; lia). nia.
Qed.
Lemma put_magnitude_first : forall b u z, 0 < z -> exists d ds, put_magnitude (radix b) u z = digit_char u d :: ds /\ 0 < d < radix b.
Proof.
  intros b u z H. unfold put_magnitude. apply put_base_first.
  pose proof (Z.log2_nonneg z). rewrite Nat2Z.inj_succ, Z2Nat.id by auto. split; [lia|]. apply Z.log2_spec. lia.
Qed.
Lemma put_magnitude_zero : forall b u, put_magnitude (radix b) u 0 = [48].
Proof. intros [| |] []; reflexivity. Qed.

Lemma shape2 : forall t f z, readable t f z -> exists w1 k w2,
  put_int_formatted t f z = w1 ++ (put_prefix t f z ++ repeat 48 k ++ put_body t f z) ++ w2 /\
  Forall blank w1 /\ Forall blank w2 /\ (flush t f z -> w1 = []) /\
  (f_fill f <> 48 \/ f_width f <= Z.of_nat (length (put_int_formatted t (no_width f) z)) -> k = 0%nat).
Proof.
  intros t f z R. unfold readable in R. unfold flush. rewrite put_no_width, app_length in *.
  unfold put_int_formatted. set (n := (length (put_prefix t f z) + length (put_body t f z))%nat) in *.
  destruct R as [[BL NI]|[[F0 IN]|WD]].
  - assert (FB : Forall blank (padding f n)).
    { unfold padding. apply Forall_forall. intros c I. apply repeat_spec in I. now subst. }
    destruct (f_adjust f) eqn:AD; [| |congruence].
    + exists [], 0%nat, (padding f n). cbn [repeat app]. rewrite <- app_assoc. auto.
    + exists (padding f n), 0%nat, []. cbn [repeat app]. rewrite app_nil_r. repeat split; auto.
      intros [E|L]; [congruence|]. now apply padding_none.
  - rewrite IN. assert (PZ : padding f n = repeat 48 (Z.to_nat (f_width f - Z.of_nat n))) by (unfold padding; now rewrite F0).
    exists [], (Z.to_nat (f_width f - Z.of_nat n)), []. rewrite app_nil_r. cbn [app]. repeat split; auto.
    + rewrite <- PZ. destruct (f_base f) eqn:B; auto. rewrite PZ. unfold put_prefix. rewrite B.
      destruct (f_showbase f && negb (z =? 0)); auto. rewrite !app_assoc. f_equal. symmetry. apply repeat_cons.
    + intros [E|L]; [congruence|lia].
  - rewrite padding_none by (unfold n; lia). exists [], 0%nat, []. rewrite !app_nil_r. cbn [app repeat].
    repeat split; auto. destruct (f_adjust f); auto. destruct (f_base f); auto.
Qed.

Lemma ended_stops : forall b r, ended r -> stops b r.
Proof. intros b [|c r] E; cbn; auto. destruct E as (A & B & C). split; [|auto]. intros d D. now apply A in D. Qed.

Lemma reads_zero : forall t sign k, numeric t -> sign = [] \/ sign = [43] -> reads_in Oct t (sign ++ repeat 48 k ++ [48]) 0.
Proof.
  intros t sign k W SG. exists false, 0. split.
  - exists sign, [], (repeat 48 k ++ [48]). split; [reflexivity|]. split; [auto|]. split; [auto|].
    apply spells_zeros; [cbn; lia|]. apply spells_one; [left; lia|cbn; lia].
  - pose proof (numeric_rmax t W). destruct (rsigned t) eqn:S.
    + split; auto. unfold rmin. rewrite S. assert (0 < 2 ^ (rbits t - 1)) by (apply Z.pow_pos_nonneg; unfold numeric in W; lia). lia.
    + split; [lia|]. now rewrite Z.mod_0_l by (apply Z.pow_nonzero; unfold numeric in W; lia).
Qed.

Lemma reads_written : forall t fl f z k r, numeric t -> in_rep t z = true -> f_base f = Dec \/ 0 <= z -> ended r ->
  in_base fl = Some (f_base f) \/ in_base fl = None /\ (f_base f = Dec /\ k = 0%nat \/ f_base f <> Dec /\ f_showbase f = true) ->
  reads_flags t fl (put_prefix t f z ++ repeat 48 k ++ put_body t f z) z r.
Proof.
  intros t fl f z k r W F P E B.
  assert (R : reads_in (f_base f) t (put_prefix t f z ++ repeat 48 k ++ put_body t f z) z).
  { apply itself_reads; auto. apply put_numeral; auto. now exists k. }
  pose proof (ended_stops (f_base f) r E) as ST.
  destruct B as [B|[B C]].
  { exists (f_base f). split; auto. split; auto. now rewrite text_base_in, B. }
  assert (NX : forall x r', r = x :: r' -> x <> 120 /\ x <> 88) by (intros x r' ->; now destruct E).
  destruct (Z.eq_dec z 0) as [Z0|NZ].
  - assert (exists sign, (sign = [] \/ sign = [43]) /\ put_prefix t f z ++ repeat 48 k ++ put_body t f z = sign ++ repeat 48 k ++ [48]) as (sign & SG & EQ).
    { subst z. unfold put_prefix, put_body. cbn [Z.ltb Z.eqb negb Z.compare Z.abs]. rewrite !andb_false_r. rewrite Z.mod_0_l by (apply Z.pow_nonzero; unfold numeric in W; lia).
      destruct (f_base f).
      - exists []. rewrite (put_magnitude_zero Oct). auto.
      - exists (if f_showpos f && rsigned t then [43] else []). rewrite (put_magnitude_zero Dec). split; auto. destruct (f_showpos f && rsigned t); auto.
      - exists []. rewrite (put_magnitude_zero Hex). auto. }
    rewrite EQ. subst z. exists Oct. split; [now apply reads_zero|]. split; [now apply ended_stops|]. rewrite text_base_in, B.
    split; [|auto]. exists sign, (repeat 48 k ++ [48]). split; auto. split; [tauto|]. destruct k; cbn; eauto.
  - exists (f_base f). split; auto. split; auto. rewrite text_base_in, B. split; [|auto].
    destruct C as [[D ->]|[ND SB]].
    + cbn [repeat app]. unfold put_body. rewrite D.
      destruct (put_magnitude_first Dec (f_uppercase f) (Z.abs z)) as (d & ds & EQ & DB); [lia|]. rewrite EQ.
      unfold announces, put_prefix. rewrite D.
      exists (if z <? 0 then [45] else if f_showpos f && rsigned t then [43] else []), (digit_char (f_uppercase f) d :: ds).
      split; auto. split; [destruct (z <? 0); auto; destruct (f_showpos f && rsigned t); auto|].
      cbn [radix] in DB. exists (digit_char (f_uppercase f) d), ds. split; auto. unfold digit_char.
      destruct (Z.ltb_spec d 10); lia.
    + unfold announces, put_prefix. rewrite SB. replace (z =? 0) with false by (symmetry; now apply Z.eqb_neq). cbn [negb andb].
      destruct (f_base f); [|contradiction|].
      * exists []. eexists. split; [reflexivity|]. split; auto. cbn [app]. eauto.
      * exists []. eexists. split; [reflexivity|]. split; auto. cbn [app]. eexists. eexists. split; [reflexivity|].
        destruct (f_uppercase f); auto.
Qed.

Lemma ended_slash : forall w, Forall blank w -> ended (w ++ [47]).
Proof.
  intros [|c w] B; cbn [app ended].
  - split; [intros d D; unfold digit_is in D; lia|lia].
  - inversion B; subst. unfold blank in H1. split; [intros d D; unfold digit_is in D; lia|lia].
Qed.

Theorem flags_round_trip : forall t fo fi f v rest old, numeric t -> wf_raw t v -> as_itself (out_base fo) v ->
  readable t (with_base (out_base fo) f) (num v) -> ended rest ->
  (fl_skipws fi = false -> flush t (with_base (out_base fo) f) (num v)) ->
  in_base fi = Some (out_base fo) \/
  in_base fi = None /\ (out_base fo = Dec \/ f_showbase f = true) /\ announced_safely t (with_base (out_base fo) f) (num v) ->
  exists e, get_raw_flags t fi (mkIn (put_raw_flags t fo f v ++ rest) false false) old = (mkIn rest false e, v).
Proof.
  intros t fo fi f v rest old W [Fn Fd] AI RD EN FL BS. apply get_raw_flags_accepts; auto. unfold put_raw_flags.
  remember (with_base (out_base fo) f) as g eqn:G.
  assert (GB : out_base fo = f_base g) by now subst g. assert (GS : f_showbase f = f_showbase g) by now subst g.
  rewrite GB in AI, BS. rewrite GS in BS. clear G GB GS.
  rewrite put_raw_shape. cbn [fst].
  destruct (shape2 t g (num v) RD) as (w1 & k & w2 & E & B1 & B2 & W1 & K).
  exists w1, (put_prefix t g (num v) ++ repeat 48 k ++ put_body t g (num v)), w2, [], (put_prefix t g (den v) ++ repeat 48 0 ++ put_body t g (den v)).
  rewrite E, put_no_width. cbn [repeat app]. split; [rewrite <- !app_assoc; cbn [app]; rewrite <- !app_assoc; reflexivity|]. split; auto. split; auto.
  split; [intros S; split; auto|].
  split; [|split; [now apply blank_no_slash|]].
  - apply reads_written; auto; [destruct AI; [auto|right; tauto]|now apply ended_slash|].
    destruct BS as [BS|(BN & SB & AS)]; auto. right. split; auto. destruct (f_base g) eqn:B.
    + right. split; [discriminate|]. destruct SB; [discriminate|auto].
    + left. split; auto. apply K. unfold announced_safely in AS. rewrite B in AS. tauto.
    + right. split; [discriminate|]. destruct SB; [discriminate|auto].
  - apply (reads_written t fi g (den v) 0); auto; [destruct AI; [auto|right; tauto]|].
    destruct BS as [BS|(BN & SB & AS)]; auto. right. split; auto. destruct (f_base g) eqn:B.
    + right. split; [discriminate|]. destruct SB; [discriminate|auto].
    + left. auto.
    + right. split; [discriminate|]. destruct SB; [discriminate|auto].
Qed.

(** ** Without skipws *)

Lemma get_number_blank : forall b t c r, blank c -> get_number_in b t (c :: r) = (mkIn (c :: r) true false, 0).
Proof.
  intros b t c r B. unfold get_number_in. unfold blank in B. destruct (Z.eqb_spec c 45); [lia|]. destruct (Z.eqb_spec c 43); [lia|].
  assert (SK : skip_0x b (c :: r) = c :: r).
  { destruct b; try reflexivity. cbn. destruct r as [|x r]; auto. destruct (Z.eqb_spec c 48); [lia|]. reflexivity. }
  rewrite SK. cbn [span_base]. replace (is_digit b c) with false; [reflexivity|]. symmetry. apply (stops_digit b c []).
  now apply stops_blank.
Qed.
Theorem noskipws_blank : forall t fl c r old, fl_skipws fl = false -> blank c ->
  get_raw_flags t fl (mkIn (c :: r) false false) old = (mkIn (c :: r) true false, mkRaw 0 (den old)).
Proof.
  intros t fl c r old S B. unfold get_raw_flags, get_int_flags, sentry_flags. rewrite S. unfold Stream.good. cbn [failbit eofbit negb andb unread].
  unfold get_number_flags. rewrite get_number_blank by auto. reflexivity.
Qed.
Theorem noskipws_blank_denominator : forall t fl n z mid c r old, numeric t -> fl_skipws fl = false -> blank c ->
  reads_flags t fl n z (mid ++ [47]) -> ~ In 47 mid ->
  get_raw_flags t fl (mkIn (n ++ mid ++ 47 :: c :: r) false false) old = (mkIn (c :: r) true false, mkRaw z 0).
Proof.
  intros t fl n z mid c r old W S B N NS. unfold get_raw_flags, get_int_flags, sentry_flags. rewrite S. unfold Stream.good at 1. cbn [failbit eofbit negb andb unread].
  assert (N' : reads_flags t fl n z (mid ++ 47 :: c :: r)).
  { destruct mid as [|x mid]; cbn [app] in *; eapply reads_flags_more; exact N. }
  rewrite (get_number_flags_ok t fl n z _ W N'). replace (at_end (mid ++ 47 :: c :: r)) with false by now destruct mid.
  unfold ignore_slash, Stream.good. cbn [failbit eofbit negb andb unread]. rewrite after_slash_app by auto.
  cbn [failbit eofbit negb andb unread]. unfold get_number_flags. rewrite get_number_blank by auto. reflexivity.
Qed.
Theorem noskipws_empty : forall t fl old, fl_skipws fl = false ->
  get_raw_flags t fl (mkIn [] false false) old = (mkIn [] true true, mkRaw 0 (den old)).
Proof.
  intros t fl old S. unfold get_raw_flags, get_int_flags, sentry_flags. rewrite S. unfold Stream.good. cbn [failbit eofbit negb andb unread].
  unfold get_number_flags, get_number_in. destruct (in_base fl) as [[| |]|]; reflexivity.
Qed.

(** ** One base bit and skipws *)

Theorem flags_in : forall t fl s old b, fl_skipws fl = true -> in_base fl = Some b -> get_raw_flags t fl s old = get_raw_in b t s old.
Proof.
  intros t fl s old b S B.
  assert (I : forall x o, get_int_flags t fl x o = get_int_in b t x o).
  { intros x o. unfold get_int_flags, get_int_in, sentry_flags. rewrite S. destruct (sentry x) as [s1 ok].
    unfold get_number_flags. now rewrite B. }
  unfold get_raw_flags, get_raw_in. rewrite I. destruct (get_int_in b t s (num old)) as [s1 n]. now rewrite I.
Qed.
