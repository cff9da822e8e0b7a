(** Proofs about streams with other format flags. *)

From Coq Require Import ZArith List Bool Lia.
From Verif Require Import Machine Raw Stream Stream_spec Format Format_spec Machine_proofs Stream_proofs.
Import ListNotations.
Open Scope Z_scope.

(** ** Digits *)

Lemma digit_of_is : forall c r, r <= 16 -> digit_of c < r <-> exists d, digit_is c d /\ d < r.
Proof.
  intros c r R. unfold digit_of, digit_is, is_dec.
  destruct (Z.leb_spec 48 c), (Z.leb_spec c 57), (Z.leb_spec 97 c), (Z.leb_spec c 102), (Z.leb_spec 65 c), (Z.leb_spec c 70);
    cbn [andb]; split; try (intros H'; eexists; split; [|exact H']; lia); intros [d [D L]]; lia.
Qed.
Lemma digit_of_eq : forall c d, digit_is c d -> digit_of c = d.
Proof.
  intros c d. unfold digit_of, digit_is, is_dec.
  destruct (Z.leb_spec 48 c), (Z.leb_spec c 57), (Z.leb_spec 97 c), (Z.leb_spec c 102), (Z.leb_spec 65 c), (Z.leb_spec c 70);
    cbn [andb]; lia.
Qed.
Lemma radix_bounds : forall b, 8 <= radix b <= 16.
Proof. destruct b; cbn; lia. Qed.
Lemma digit_char_is : forall u d, 0 <= d < 16 -> digit_is (digit_char u d) d.
Proof. intros u d D. unfold digit_char, digit_is. destruct (Z.ltb_spec d 10), u; lia. Qed.
Lemma is_digit_true : forall b c d, digit_is c d -> d < radix b -> is_digit b c = true.
Proof. intros b c d D L. unfold is_digit. rewrite (digit_of_eq c d D). now apply Z.ltb_lt. Qed.

Lemma spells_nonempty : forall r s m, spells r s m -> s <> [].
Proof. intros r s m H. inversion H; subst; [discriminate|]. now destruct s0. Qed.
Lemma spells_int : forall b s m, spells (radix b) s m -> base_int b s = m /\ forall c, In c s -> is_digit b c = true.
Proof.
  intros b s m H. induction H as [c d D L|s m c d H [IH1 IH2] D L].
  - split; [cbn; rewrite (digit_of_eq c d D); lia|]. intros c' [<-|[]]. eapply is_digit_true; eauto.
  - split.
    + unfold base_int in *. rewrite fold_left_app, IH1. cbn [fold_left]. now rewrite (digit_of_eq c d D).
    + intros c' I. apply in_app_or in I as [I|[<-|[]]]; auto. eapply is_digit_true; eauto.
Qed.
Lemma spells_zeros : forall r n s m, 8 <= r -> spells r s m -> spells r (repeat 48 n ++ s) m.
Proof.
  intros r n s m R H. assert (Z0 : digit_is 48 0) by (left; lia).
  induction H as [c d D L|s m c d H IH D L].
  - assert (G : forall k, spells r (repeat 48 (S k)) 0).
    { induction k as [|k IHk]; [apply spells_one; auto; lia|].
      replace (repeat 48 (S (S k))) with (repeat 48 (S k) ++ [48]) by (rewrite <- repeat_cons; reflexivity).
      exact (spells_more r (repeat 48 (S k)) 0 48 0 IHk Z0 ltac:(lia)). }
    destruct n as [|n]; [apply spells_one; auto|]. replace d with (0 * r + d) by ring. apply spells_more; auto.
  - rewrite app_assoc. now apply spells_more.
Qed.

Lemma put_base_spec : forall b u fuel z acc, 0 <= z < 2 ^ Z.of_nat fuel -> (0 < fuel)%nat ->
  exists ds, put_base fuel (radix b) u z acc = ds ++ acc /\ spells (radix b) ds z.
Proof.
  intros b u. pose proof (radix_bounds b) as RB.
  induction fuel as [|fuel IH]; intros z acc H F; [lia|]. cbn [put_base].
  pose proof (Z.mod_pos_bound z (radix b) ltac:(lia)) as MB.
  pose proof (Z.div_mod z (radix b) ltac:(lia)) as DM.
  assert (D : digit_is (digit_char u (z mod radix b)) (z mod radix b)) by (apply digit_char_is; lia).
  destruct (Z.eqb_spec (z / radix b) 0) as [E|E].
  - exists [digit_char u (z mod radix b)]. split; auto. replace z with (z mod radix b) at 2 by lia. apply spells_one; auto. lia.
  - assert (DP : 0 <= z / radix b) by (apply Z.div_pos; lia).
    assert (1 <= fuel)%nat.
    { destruct fuel; [|lia]. change (2 ^ Z.of_nat 1) with 2 in H. assert (z / radix b = 0) by (apply Z.div_small; lia). contradiction. }
    destruct (IH (z / radix b) (digit_char u (z mod radix b) :: acc)) as [ds [A B]]; [|lia|].
    { rewrite Nat2Z.inj_succ, Z.pow_succ_r in H by lia. split; [auto|].
      apply Z.div_lt_upper_bound; [lia|]. assert (0 < 2 ^ Z.of_nat fuel) by (apply Z.pow_pos_nonneg; lia). nia. }
    exists (ds ++ [digit_char u (z mod radix b)]). split; [rewrite A; now rewrite <- app_assoc|].
    replace z with (z / radix b * radix b + z mod radix b) at 2 by lia. apply spells_more; auto. lia.
Qed.
Lemma put_magnitude_spells : forall b u z, 0 <= z -> spells (radix b) (put_magnitude (radix b) u z) z.
Proof.
  intros b u z H. unfold put_magnitude.
  destruct (put_base_spec b u (S (Z.to_nat (Z.log2 z))) z []) as [ds [A B]]; [|lia|].
  - pose proof (Z.log2_nonneg z). rewrite Nat2Z.inj_succ, Z2Nat.id by auto. split; [lia|].
    destruct (Z.eq_dec z 0) as [->|N]; [reflexivity|]. apply Z.log2_spec. lia.
  - rewrite A, app_nil_r. exact B.
Qed.

(** ** Reading *)

Lemma stops_digit : forall b c s, stops b (c :: s) -> is_digit b c = false.
Proof.
  intros b c s [H _]. unfold is_digit. apply Z.ltb_ge. destruct (Z.le_gt_cases (radix b) (digit_of c)); auto.
  apply digit_of_is in H0 as [d [D L]]; [|apply radix_bounds]. apply H in D. lia.
Qed.
Lemma span_base_app : forall b ds r, (forall c, In c ds -> is_digit b c = true) -> stops b r -> span_base b (ds ++ r) = (ds, r).
Proof.
  intros b. induction ds as [|c ds IH]; intros r D N.
  - cbn [app]. destruct r as [|c r]; [reflexivity|]. cbn [span_base]. now rewrite (stops_digit _ _ _ N).
  - cbn. rewrite D by now left. rewrite IH; auto. intros c' I. apply D. now right.
Qed.
Lemma not_x : forall b c, is_digit b c = true -> c <> 120 /\ c <> 88 /\ c <> 45 /\ c <> 43 /\ c <> 47 /\ ~ blank c.
Proof.
  intros b c H. unfold is_digit in H. apply Z.ltb_lt in H. apply digit_of_is in H as [d [D L]]; [|apply radix_bounds].
  unfold digit_is in D. unfold blank. lia.
Qed.
Lemma skip_0x_none : forall b ds r, ds <> [] -> (forall c, In c ds -> is_digit b c = true) -> stops b r ->
  skip_0x b (ds ++ r) = ds ++ r.
Proof.
  intros [| |] ds r N D ST; try reflexivity. destruct ds as [|c [|x ds]]; [contradiction| |].
  - cbn [app skip_0x]. destruct r as [|x r]; [reflexivity|]. destruct ST as [_ ST]. specialize (ST eq_refl).
    destruct (Z.eqb_spec x 120); [lia|]. destruct (Z.eqb_spec x 88); [lia|]. now rewrite andb_false_r.
  - cbn [app skip_0x]. destruct (not_x Hex x) as [A [B _]]; [apply D; right; now left|].
    destruct (Z.eqb_spec x 120); [lia|]. destruct (Z.eqb_spec x 88); [lia|]. now rewrite andb_false_r.
Qed.
Lemma skip_0x_mark : forall b mark ds r, ds <> [] -> (forall c, In c ds -> is_digit b c = true) -> stops b r ->
  mark = [] \/ b = Hex /\ (mark = [48; 120] \/ mark = [48; 88]) ->
  skip_0x b (mark ++ ds ++ r) = ds ++ r.
Proof.
  intros b mark ds r N D ST [->|[-> [-> | ->]]]; [exact (skip_0x_none b ds r N D ST)|reflexivity|reflexivity].
Qed.

(** The outcome of reading a numeral: the value and whether it fits. *)
Lemma get_number_numeral : forall b t s neg m r, numeric t -> numeral_in b s neg m -> stops b r ->
  get_number_in b t (s ++ r) =
  if rsigned t then
    let z := if neg then - m else m in
    if in_rep t z then (mkIn r false (at_end r), z)
    else (mkIn r true (at_end r), if neg then rmin t else rmax t)
  else if m <=? rmax t then (mkIn r false (at_end r), cast t (if neg then - m else m))
  else (mkIn r true (at_end r), rmax t).
Proof.
  intros b t s neg m r W [sign [mark [ds [-> [SG [MK SP]]]]]] ST.
  destruct (spells_int b ds m SP) as [BI DG]. pose proof (spells_nonempty _ _ _ SP) as NE.
  assert (G : forall r1, skip_0x b r1 = ds ++ r ->
    (let '(ds, r2) := span_base b (skip_0x b r1) in
     let eof := match r2 with [] => true | _ => false end in
     match ds with
     | [] => (mkIn r2 true eof, 0)
     | _ =>
         let m := base_int b ds in
         if rsigned t then
           let z := if neg then - m else m in
           if in_rep t z then (mkIn r2 false eof, z)
           else (mkIn r2 true eof, if neg then rmin t else rmax t)
         else if m <=? rmax t then (mkIn r2 false eof, cast t (if neg then - m else m))
         else (mkIn r2 true eof, rmax t)
     end) =
    if rsigned t then
      let z := if neg then - m else m in
      if in_rep t z then (mkIn r false (at_end r), z)
      else (mkIn r true (at_end r), if neg then rmin t else rmax t)
    else if m <=? rmax t then (mkIn r false (at_end r), cast t (if neg then - m else m))
    else (mkIn r true (at_end r), rmax t)).
  { intros r1 E. rewrite E, span_base_app by auto. cbn zeta. rewrite BI. destruct ds; [contradiction|]. reflexivity. }
  unfold get_number_in. rewrite <- !app_assoc.
  pose proof (skip_0x_mark b mark ds r NE DG ST MK) as K.
  destruct SG as [[-> ->]|[-> [-> | ->]]].
  - cbn [app]. replace (45 =? 45) with true by reflexivity. now apply G.
  - cbn [app]. assert (F : exists c s', mark ++ ds ++ r = c :: s' /\ c <> 45 /\ c <> 43).
    { destruct MK as [->|[_ [-> | ->]]]; [|eexists; eexists; split; [reflexivity|lia]|eexists; eexists; split; [reflexivity|lia]].
      destruct ds as [|c ds]; [contradiction|]. exists c, (ds ++ r). split; auto.
      destruct (not_x b c) as [_ [_ [A [B _]]]]; auto. apply DG. now left. }
    destruct F as [c [s' [E [A B]]]]. rewrite E in *. destruct (Z.eqb_spec c 45); [lia|]. destruct (Z.eqb_spec c 43); [lia|].
    now apply G.
  - cbn [app]. replace (43 =? 45) with false by reflexivity. replace (43 =? 43) with true by reflexivity. now apply G.
Qed.
Lemma get_number_in_ok : forall b t s z r, numeric t -> reads_in b t s z -> stops b r ->
  get_number_in b t (s ++ r) = (mkIn r false (at_end r), z).
Proof.
  intros b t s z r W [neg [m [N V]]] ST. rewrite (get_number_numeral b t s neg m r W N ST).
  destruct (rsigned t) eqn:S.
  - destruct V as [V1 V2]. cbn zeta. rewrite <- V1. replace (in_rep t z) with true; [reflexivity|]. symmetry. apply in_rep_iff. lia.
  - destruct V as [V1 V2]. destruct (Z.leb_spec m (rmax t)); [|lia]. unfold cast, wrap. rewrite S. now rewrite V2.
Qed.

Lemma numeral_in_first : forall b s neg m, numeral_in b s neg m -> exists c s', s = c :: s' /\ ~ blank c.
Proof.
  intros b s neg m [sign [mark [ds [-> [SG [MK SP]]]]]].
  destruct (spells_int b ds m SP) as [_ DG]. pose proof (spells_nonempty _ _ _ SP) as NE.
  destruct SG as [[_ ->]|[_ [-> | ->]]]; [eexists; eexists; split; [reflexivity|unfold blank; lia]| |eexists; eexists; split; [reflexivity|unfold blank; lia]].
  destruct MK as [->|[_ [-> | ->]]]; [|eexists; eexists; split; [reflexivity|unfold blank; lia]|eexists; eexists; split; [reflexivity|unfold blank; lia]].
  destruct ds as [|c ds]; [contradiction|]. exists c, ds. split; auto. destruct (not_x b c) as [_ [_ [_ [_ [_ A]]]]]; auto. apply DG. now left.
Qed.
Lemma sentry_numeral : forall b w s neg m r, numeral_in b s neg m -> Forall blank w ->
  sentry (mkIn (w ++ s ++ r) false false) = (mkIn (s ++ r) false false, true).
Proof.
  intros b w s neg m r N B. destruct (numeral_in_first _ _ _ _ N) as [c [s' [-> NB]]].
  unfold sentry, good. cbn [failbit eofbit negb andb unread]. rewrite skip_spaces_app; auto.
Qed.

Theorem get_raw_in_accepts : forall b t text v rest old, numeric t -> fraction_text_in b t text v rest ->
  exists e, get_raw_in b t (mkIn text false false) old = (mkIn rest false e, v).
Proof.
  intros b t text v rest old W [b1 [n [mid [b2 [d [-> [B1 [N [SM [NS [B2 [D SR]]]]]]]]]]]].
  exists (at_end rest). unfold get_raw_in, get_int_in.
  pose proof N as [neg1 [m1 [N1 _]]]. pose proof D as [neg2 [m2 [D1 _]]].
  rewrite (sentry_numeral b b1 n neg1 m1) by auto. cbn [unread].
  assert (ST : stops b (mid ++ [47] ++ b2 ++ d ++ rest)).
  { destruct mid as [|c mid]; cbn [app]; [|exact SM]. split; [|lia]. intros x X. unfold digit_is in X. lia. }
  rewrite (get_number_in_ok b t n (num v)) by auto.
  replace (at_end (mid ++ [47] ++ b2 ++ d ++ rest)) with false by now destruct mid.
  unfold ignore_slash, good. cbn [failbit eofbit negb andb unread].
  change (mid ++ [47] ++ b2 ++ d ++ rest) with (mid ++ 47 :: b2 ++ d ++ rest). rewrite after_slash_app by auto.
  rewrite (sentry_numeral b b2 d neg2 m2) by auto. cbn [unread].
  rewrite (get_number_in_ok b t d (den v)) by auto. now destruct v.
Qed.

(** ** Writing *)

Lemma padding_none : forall f n, f_width f <= Z.of_nat n -> padding f n = [].
Proof. intros f n H. unfold padding. replace (Z.to_nat (f_width f - Z.of_nat n)) with 0%nat by lia. reflexivity. Qed.
Lemma put_no_width : forall t f z, put_int_formatted t (no_width f) z = put_prefix t f z ++ put_body t f z.
Proof.
  intros t f z. unfold put_int_formatted. rewrite padding_none by (cbn; lia). cbn [no_width f_adjust f_base].
  replace (put_prefix t (no_width f) z) with (put_prefix t f z) by reflexivity.
  replace (put_body t (no_width f) z) with (put_body t f z) by reflexivity.
  destruct (f_adjust f); [now rewrite app_nil_r|reflexivity|]. destruct (f_base f); reflexivity.
Qed.

(** The number that is written. *)
Definition shown (b : basefield) (t : rep) (z : Z) : Z := match b with Dec => z | _ => z mod 2 ^ rbits t end.

Lemma shown_pos : forall b t z, numeric t -> b <> Dec -> 0 <= shown b t z < 2 ^ rbits t.
Proof.
  intros b t z W B. assert (0 < 2 ^ rbits t) by (apply Z.pow_pos_nonneg; unfold numeric in W; lia).
  destruct b; try contradiction; cbn; apply Z.mod_pos_bound; auto.
Qed.

Lemma put_numeral : forall t f z pad, numeric t -> (exists n, pad = repeat 48 n) -> 
  numeral_in (f_base f) (put_prefix t f z ++ pad ++ put_body t f z) (shown (f_base f) t z <? 0) (Z.abs (shown (f_base f) t z)).
Proof.
  intros t f z pad W [n ->]. unfold put_prefix, put_body.
  assert (SP : spells (radix (f_base f))
    (repeat 48 n ++ put_magnitude (radix (f_base f)) (f_uppercase f) match f_base f with Dec => Z.abs z | _ => z mod 2 ^ rbits t end)
    (Z.abs (shown (f_base f) t z))).
  { apply spells_zeros; [apply radix_bounds|].
    pose proof (shown_pos (f_base f) t z W) as SH.
    replace (Z.abs (shown (f_base f) t z)) with (match f_base f with Dec => Z.abs z | _ => z mod 2 ^ rbits t end).
    - apply put_magnitude_spells. destruct (f_base f); cbn in SH; [apply SH; discriminate|lia|apply SH; discriminate].
    - destruct (f_base f); cbn in *; auto; rewrite Z.abs_eq; auto; apply SH; discriminate. }
  destruct (f_base f) eqn:B.
  - assert (SH := shown_pos Oct t z W ltac:(discriminate)). destruct (Z.ltb_spec (shown Oct t z) 0); [lia|].
    destruct (f_showbase f && negb (z =? 0)).
    + exists [], [], (repeat 48 1 ++ repeat 48 n ++ put_magnitude (radix Oct) (f_uppercase f) (z mod 2 ^ rbits t)).
      split; [reflexivity|]. split; [auto|]. split; [auto|]. apply spells_zeros; auto. cbn; lia.
    + eexists [], [], _. split; [reflexivity|]. split; [auto|]. split; [auto|]. exact SP.
  - cbn [shown] in *. destruct (Z.ltb_spec z 0).
    + eexists [45], [], _. split; [reflexivity|]. split; [auto|]. split; [auto|]. exact SP.
    + destruct (f_showpos f && rsigned t).
      * eexists [43], [], _. split; [reflexivity|]. split; [auto|]. split; [auto|]. exact SP.
      * eexists [], [], _. split; [reflexivity|]. split; [auto|]. split; [auto|]. exact SP.
  - assert (SH := shown_pos Hex t z W ltac:(discriminate)). destruct (Z.ltb_spec (shown Hex t z) 0); [lia|].
    destruct (f_showbase f && negb (z =? 0)).
    + eexists [], [48; if f_uppercase f then 88 else 120], _. split; [reflexivity|]. split; [auto|].
      split; [destruct (f_uppercase f); auto|]. exact SP.
    + eexists [], [], _. split; [reflexivity|]. split; [auto|]. split; [auto|]. exact SP.
Qed.

Lemma stops_slash : forall b r, stops b (47 :: r).
Proof. intros b r. split; [|lia]. intros d D. unfold digit_is in D. lia. Qed.
Lemma stops_blank : forall b c r, blank c -> stops b (c :: r).
Proof. intros b c r B. unfold blank in B. split; [|lia]. intros d D. unfold digit_is in D. lia. Qed.

(** A padded number: blanks, a numeral, blanks. *)
Lemma put_int_shape : forall t f z, numeric t -> readable t f z ->
  exists w1 s w2, put_int_formatted t f z = w1 ++ s ++ w2 /\ Forall blank w1 /\ Forall blank w2 /\
    numeral_in (f_base f) s (shown (f_base f) t z <? 0) (Z.abs (shown (f_base f) t z)).
Proof.
  intros t f z W R. unfold readable in R. rewrite put_no_width, app_length in R.
  assert (N0 : numeral_in (f_base f) (put_prefix t f z ++ put_body t f z) (shown (f_base f) t z <? 0) (Z.abs (shown (f_base f) t z))).
  { apply (put_numeral t f z []); auto. now exists 0%nat. }
  unfold put_int_formatted. set (n := (length (put_prefix t f z) + length (put_body t f z))%nat) in *.
  destruct R as [[BL NI]|[[F0 IN]|WD]].
  - assert (FB : Forall blank (padding f n)).
    { unfold padding. apply Forall_forall. intros c I. apply repeat_spec in I. now subst. }
    destruct (f_adjust f); [|exists (padding f n), (put_prefix t f z ++ put_body t f z), []; rewrite app_nil_r; auto|congruence].
    exists [], (put_prefix t f z ++ put_body t f z), (padding f n). rewrite <- app_assoc. auto.
  - rewrite IN. assert (PZ : exists k, padding f n = repeat 48 k) by (unfold padding; rewrite F0; eauto).
    pose proof (put_numeral t f z (padding f n) W PZ) as NP.
    assert (E : match f_base f with
      | Oct => padding f n ++ put_prefix t f z ++ put_body t f z
      | _ => put_prefix t f z ++ padding f n ++ put_body t f z
      end = put_prefix t f z ++ padding f n ++ put_body t f z).
    { destruct (f_base f) eqn:B; auto. destruct PZ as [k ->]. unfold put_prefix. rewrite B.
      destruct (f_showbase f && negb (z =? 0)); auto. rewrite !app_assoc. f_equal. symmetry. apply repeat_cons. }
    rewrite E. exists [], (put_prefix t f z ++ padding f n ++ put_body t f z), []. rewrite app_nil_r. auto.
  - rewrite padding_none by (unfold n; lia). rewrite app_nil_r.
    exists [], (put_prefix t f z ++ put_body t f z), []. rewrite app_nil_r. cbn [app].
    split; [destruct (f_adjust f); auto; destruct (f_base f); auto|auto].
Qed.
Lemma readable_no_width : forall t f z, readable t (no_width f) z.
Proof. intros t f z. right. right. cbn. lia. Qed.

Lemma shown_itself : forall b t z, numeric t -> in_rep t z = true -> b = Dec \/ 0 <= z -> shown b t z = z.
Proof.
  intros b t z W F H. destruct b; cbn; auto; (destruct H as [H|H]; [discriminate|]); apply Z.mod_small;
    apply in_rep_iff in F; unfold rmax in F; destruct (rsigned t); try lia;
    (split; [lia|]); apply Z.le_lt_trans with (2 ^ (rbits t - 1) - 1); try lia;
    assert (2 ^ (rbits t - 1) <= 2 ^ rbits t) by (apply Z.pow_le_mono_r; lia); lia.
Qed.
Lemma itself_reads : forall b t s z, numeric t -> in_rep t z = true -> b = Dec \/ 0 <= z ->
  numeral_in b s (shown b t z <? 0) (Z.abs (shown b t z)) -> reads_in b t s z.
Proof.
  intros b t s z W F H N. rewrite (shown_itself b t z W F H) in N. exists (z <? 0), (Z.abs z). split; auto.
  apply in_rep_iff in F. destruct (rsigned t) eqn:S.
  - split; [destruct (Z.ltb_spec z 0); lia|lia].
  - pose proof (rmin_unsigned t S). destruct (Z.ltb_spec z 0); [lia|]. split; [lia|].
    rewrite Z.abs_eq by lia. symmetry. apply Z.mod_small. unfold rmax in F. rewrite S in F. lia.
Qed.

Lemma put_raw_shape : forall t f v, put_raw_formatted t f v =
  (put_int_formatted t f (num v) ++ 47 :: put_int_formatted t (no_width f) (den v), no_width f).
Proof.
  intros t f v. unfold put_raw_formatted. change (no_width (no_width f)) with (no_width f). f_equal. f_equal.
  unfold put_char_formatted. rewrite padding_none by (cbn; lia). destruct (f_adjust (no_width f)); reflexivity.
Qed.

Lemma blank_no_slash : forall w, Forall blank w -> ~ In 47 w.
Proof. intros w B I. rewrite Forall_forall in B. apply B in I. unfold blank in I. lia. Qed.
Lemma blank_stops : forall b w r, Forall blank w -> stops b r -> stops b (w ++ r).
Proof. intros b [|c w] r B ST; auto. cbn [app]. apply stops_blank. now inversion B. Qed.

(** ** Reading back *)

Lemma no_width_shape : forall t f z, numeric t -> exists s, put_int_formatted t (no_width f) z = s /\
  numeral_in (f_base f) s (shown (f_base f) t z <? 0) (Z.abs (shown (f_base f) t z)).
Proof.
  intros t f z W. eexists. split; [reflexivity|]. rewrite put_no_width. apply (put_numeral t f z []); auto. now exists 0%nat.
Qed.

Theorem formatted_round_trip : forall t f v rest old, numeric t -> wf_raw t v -> as_itself (f_base f) v ->
  readable t f (num v) -> stops (f_base f) rest ->
  exists e, get_raw_in (f_base f) t (mkIn (fst (put_raw_formatted t f v) ++ rest) false false) old = (mkIn rest false e, v).
Proof.
  intros t f v rest old W [Fn Fd] AI RD ST. apply get_raw_in_accepts; auto. rewrite put_raw_shape. cbn [fst].
  destruct (put_int_shape t f (num v) W RD) as [w1 [s [w2 [E [B1 [B2 N]]]]]].
  destruct (no_width_shape t f (den v) W) as [s' [E' D]].
  exists w1, s, w2, [], s'. rewrite E, E'. rewrite <- !app_assoc. split; [reflexivity|]. split; [auto|].
  split; [apply itself_reads; auto; destruct AI; [auto|lia]|].
  split; [rewrite <- (app_nil_r w2); apply blank_stops; cbn; auto|]. split; [now apply blank_no_slash|].
  split; [auto|]. split; [apply itself_reads; auto; destruct AI; [auto|lia]|auto].
Qed.

(** A negative part in oct or hex. *)
Lemma shown_negative : forall b t z, numeric t -> b <> Dec -> rsigned t = true -> in_rep t z = true -> z < 0 -> rmax t < shown b t z.
Proof.
  intros b t z W B S F N. apply in_rep_iff in F. unfold rmin, rmax in *. rewrite S in *.
  assert (E : 2 ^ rbits t = 2 * 2 ^ (rbits t - 1)) by (rewrite <- Z.pow_succ_r by (unfold numeric in W; lia); f_equal; lia).
  assert (K : z mod 2 ^ rbits t = z + 2 ^ rbits t).
  { symmetry. apply Z.mod_unique with (-1); [left; lia|ring]. }
  destruct b; try contradiction; cbn; lia.
Qed.
Lemma negative_fails : forall b t w s r z old, numeric t -> b <> Dec -> rsigned t = true -> in_rep t z = true -> z < 0 ->
  Forall blank w -> stops b r -> numeral_in b s (shown b t z <? 0) (Z.abs (shown b t z)) ->
  get_int_in b t (mkIn (w ++ s ++ r) false false) old = (mkIn r true (at_end r), rmax t).
Proof.
  intros b t w s r z old W B S F N WB ST NM. unfold get_int_in. rewrite (sentry_numeral b w s _ _ r NM WB). cbn [unread].
  rewrite (get_number_numeral b t s _ _ r W NM ST). rewrite S.
  pose proof (shown_negative b t z W B S F N) as G. pose proof (numeric_rmax t W) as MX.
  destruct (Z.ltb_spec (shown b t z) 0); [lia|]. cbn zeta. rewrite Z.abs_eq by lia.
  replace (in_rep t (shown b t z)) with false; [reflexivity|]. symmetry. apply not_true_is_false. intros I.
  apply in_rep_iff in I. lia.
Qed.

Theorem formatted_negative : forall t f v rest old, numeric t -> rsigned t = true -> f_base f <> Dec -> wf_raw t v ->
  readable t f (num v) -> stops (f_base f) rest -> num v < 0 \/ den v < 0 ->
  exists s', get_raw_in (f_base f) t (mkIn (fst (put_raw_formatted t f v) ++ rest) false false) old =
    (s', if num v <? 0 then mkRaw (rmax t) (den old) else mkRaw (num v) (rmax t)) /\ failbit s' = true.
Proof.
  intros t f v rest old W S B [Fn Fd] RD ST NEG. rewrite put_raw_shape. cbn [fst].
  destruct (put_int_shape t f (num v) W RD) as [w1 [s [w2 [E [B1 [B2 N]]]]]].
  destruct (no_width_shape t f (den v) W) as [s' [E' D]]. rewrite E, E'.
  assert (SW : forall r, stops (f_base f) (w2 ++ 47 :: r)) by (intros r; apply blank_stops; auto; apply stops_slash).
  replace (((w1 ++ s ++ w2) ++ 47 :: s') ++ rest) with (w1 ++ s ++ (w2 ++ 47 :: s' ++ rest))
    by (rewrite <- !app_assoc; reflexivity).
  unfold get_raw_in. destruct (Z.ltb_spec (num v) 0) as [NN|NN].
  - rewrite (negative_fails _ t w1 s _ (num v)) by auto. unfold ignore_slash, good. cbn [failbit negb andb].
    unfold get_int_in, sentry, good. cbn [set_fail failbit negb andb unread]. eexists. split; reflexivity.
  - assert (ND : den v < 0) by lia.
    unfold get_int_in at 1. rewrite (sentry_numeral _ w1 s _ _ _ N B1). cbn [unread].
    rewrite (get_number_in_ok _ t s (num v)); auto; [|apply itself_reads; auto].
    replace (at_end (w2 ++ 47 :: s' ++ rest)) with false by now destruct w2.
    unfold ignore_slash, good. cbn [failbit eofbit negb andb unread]. rewrite after_slash_app by now apply blank_no_slash.
    change (s' ++ rest) with ([] ++ s' ++ rest). rewrite (negative_fails _ t [] s' rest (den v)) by auto.
    eexists. split; reflexivity.
Qed.

(** ** Width *)

Theorem formatted_length : forall t f v, 
  Z.of_nat (length (fst (put_raw_formatted t f v))) =
  Z.max (f_width f) (Z.of_nat (length (put_int_formatted t (no_width f) (num v)))) + 1 +
  Z.of_nat (length (put_int_formatted t (no_width f) (den v))).
Proof.
  intros t f v. rewrite put_raw_shape. cbn [fst]. rewrite app_length. cbn [length].
  assert (L : Z.of_nat (length (put_int_formatted t f (num v))) =
    Z.max (f_width f) (Z.of_nat (length (put_int_formatted t (no_width f) (num v))))).
  { rewrite put_no_width, app_length. unfold put_int_formatted, padding.
    destruct (f_adjust f), (f_base f); rewrite !app_length, repeat_length; lia. }
  lia.
Qed.

(** ** The default flags *)

Lemma put_base_dec : forall fuel z acc, put_base fuel 10 false z acc = put_digits fuel z acc.
Proof.
  induction fuel as [|fuel IH]; intros z acc; cbn; auto. rewrite IH.
  assert (D : digit_char false (z mod 10) = 48 + z mod 10).
  { unfold digit_char. pose proof (Z.mod_pos_bound z 10). destruct (Z.ltb_spec (z mod 10) 10); auto; lia. }
  now rewrite D.
Qed.
Theorem default_put : forall t v, put_raw_formatted t default_format v = (put_raw v, default_format).
Proof.
  intros t v. rewrite put_raw_shape. unfold put_raw. change (no_width default_format) with default_format.
  assert (I : forall z, put_int_formatted t default_format z = put_int z).
  { intros z. change default_format with (no_width default_format) at 1. rewrite put_no_width.
    unfold put_prefix, put_body, put_int, put_magnitude. cbn [default_format f_base f_showpos f_uppercase andb radix].
    rewrite put_base_dec. destruct (z <? 0); reflexivity. }
  now rewrite !I.
Qed.
Lemma span_dec : forall s, span_base Dec s = span_digits s.
Proof.
  induction s as [|c s IH]; cbn; auto. rewrite IH. replace (is_digit Dec c) with (is_dec c); auto.
  unfold is_digit, digit_of, is_dec. cbn [radix].
  destruct (Z.leb_spec 48 c), (Z.leb_spec c 57), (Z.leb_spec 97 c), (Z.leb_spec c 102), (Z.leb_spec 65 c), (Z.leb_spec c 70); cbn [andb];
    symmetry; try (apply Z.ltb_lt; lia); apply Z.ltb_ge; lia.
Qed.
Lemma base_int_dec : forall ds acc, Forall decimal ds ->
  fold_left (fun acc c => acc * radix Dec + digit_of c) ds acc = fold_left (fun acc c => acc * 10 + (c - 48)) ds acc.
Proof.
  induction ds as [|c ds IH]; intros acc D; cbn; auto. inversion D; subst. rewrite IH by auto. f_equal.
  unfold digit_of. apply is_dec_iff in H1. now rewrite H1.
Qed.
Theorem default_get : forall t s old, get_raw_in Dec t s old = get_raw t s old.
Proof.
  intros t s old.
  assert (G : forall r, get_number_in Dec t r = get_number t r).
  { intros r. unfold get_number_in, get_number.
    destruct (match r with [] => (false, r) | c :: r' => if c =? 45 then (true, r') else if c =? 43 then (false, r') else (false, r) end) as [neg r1].
    cbn [skip_0x]. rewrite span_dec. destruct (span_digits r1) as [ds r2] eqn:E. apply span_digits_inv in E as [_ [D _]].
    unfold base_int, digits_int. rewrite base_int_dec by auto. reflexivity. }
  assert (I : forall x o, get_int_in Dec t x o = get_int t x o).
  { intros x o. unfold get_int_in, get_int. destruct (sentry x) as [s1 ok]. now rewrite G. }
  unfold get_raw_in, get_raw. rewrite I. destruct (get_int t s (num old)) as [s1 n]. now rewrite I.
Qed.
