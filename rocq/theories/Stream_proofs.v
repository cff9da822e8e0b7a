(** Proofs about streams. *)

From Coq Require Import ZArith List Bool Lia.
From Verif Require Import Machine Raw Stream Stream_spec Machine_proofs.
Import ListNotations.
Open Scope Z_scope.

Lemma numeric_rmax : forall t, numeric t -> 32767 <= rmax t.
Proof.
  intros [s b] H. unfold numeric, rmax in *. cbn in *. destruct s.
  - assert (2 ^ 15 <= 2 ^ (b - 1)) by (apply Z.pow_le_mono_r; lia). lia.
  - assert (2 ^ 16 <= 2 ^ b) by (apply Z.pow_le_mono_r; lia). lia.
Qed.

Lemma numeric_rmin : forall t, numeric t -> rmin t <= 0.
Proof.
  intros t H. pose proof (numeric_rmax t H). destruct (rsigned t) eqn:S.
  - rewrite rmin_rmax_signed by auto. lia.
  - rewrite rmin_unsigned by auto. lia.
Qed.

Lemma is_dec_iff : forall c, is_dec c = true <-> decimal c.
Proof. intros c. unfold is_dec, decimal. rewrite andb_true_iff, !Z.leb_le. lia. Qed.
Lemma is_space_iff : forall c, is_space c = true <-> blank c.
Proof. intros c. unfold is_space, blank. rewrite orb_true_iff, andb_true_iff, Z.eqb_eq, !Z.leb_le. lia. Qed.

(** Digits. *)
Lemma digits_int_acc : forall ds acc,
  fold_left (fun acc c => acc * 10 + (c - 48)) ds acc = acc * 10 ^ Z.of_nat (length ds) + decimal_value ds.
Proof.
  induction ds as [|c ds IH]; intros acc; [cbn; lia|].
  cbn [fold_left decimal_value]. rewrite IH. cbn [length]. rewrite Nat2Z.inj_succ, Z.pow_succ_r by lia. ring.
Qed.
Lemma digits_int_value : forall ds, digits_int ds = decimal_value ds.
Proof. intros ds. unfold digits_int. rewrite digits_int_acc. lia. Qed.

Lemma put_digits_spec : forall fuel z acc, 0 <= z < 2 ^ Z.of_nat fuel -> (0 < fuel)%nat ->
  exists ds, put_digits fuel z acc = ds ++ acc /\ ds <> [] /\ Forall decimal ds /\ decimal_value ds = z /\
    (length ds = 1%nat \/ hd 0 ds <> 48).
Proof.
  induction fuel as [|fuel IH]; intros z acc H F; [lia|]. cbn [put_digits].
  assert (D : decimal (48 + z mod 10)) by (pose proof (Z.mod_pos_bound z 10); unfold decimal; lia).
  destruct (Z.eqb_spec (z / 10) 0) as [E|E].
  - exists [48 + z mod 10]. repeat split; auto; try discriminate.
    cbn [decimal_value length]. change (10 ^ Z.of_nat 0) with 1. pose proof (Z.div_mod z 10 ltac:(lia)). lia.
  - assert (1 <= fuel)%nat.
    { destruct fuel; [|lia]. cbn in H. assert (z / 10 = 0) by (apply Z.div_small; lia). contradiction. }
    destruct (IH (z / 10) ((48 + z mod 10) :: acc)) as [ds [A [B [C [G L]]]]]; [|lia|].
    { rewrite Nat2Z.inj_succ, Z.pow_succ_r in H by lia. split; [apply Z.div_pos; lia|].
      apply Z.div_lt_upper_bound; lia. }
    exists (ds ++ [48 + z mod 10]). repeat split.
    + rewrite A. now rewrite <- app_assoc.
    + now destruct ds.
    + apply Forall_app. auto.
    + rewrite <- digits_int_value in *. unfold digits_int in *. rewrite fold_left_app, G. cbn [fold_left].
      pose proof (Z.div_mod z 10 ltac:(lia)). lia.
    + right. destruct ds as [|c ds]; [contradiction|]. cbn in *. destruct L as [L|L]; auto.
      destruct ds; [|discriminate]. cbn [decimal_value length] in G. change (10 ^ Z.of_nat 0) with 1 in G. lia.
Qed.

Lemma put_digits_abs : forall z, exists ds, put_digits (S (Z.to_nat (Z.log2 (Z.abs z)))) (Z.abs z) [] = ds /\
  ds <> [] /\ Forall decimal ds /\ decimal_value ds = Z.abs z /\ (length ds = 1%nat \/ hd 0 ds <> 48).
Proof.
  intros z. destruct (put_digits_spec (S (Z.to_nat (Z.log2 (Z.abs z)))) (Z.abs z) []) as [ds [A B]]; [|lia|].
  - pose proof (Z.log2_nonneg (Z.abs z)). rewrite Nat2Z.inj_succ, Z2Nat.id by auto. split; [lia|].
    destruct (Z.eq_dec (Z.abs z) 0) as [->|N]; [reflexivity|]. apply Z.log2_spec. lia.
  - exists ds. rewrite app_nil_r in A. auto.
Qed.

Lemma put_int_numeral : forall z, numeral (put_int z) (z <? 0) (Z.abs z).
Proof.
  intros z. unfold put_int. destruct (put_digits_abs z) as [ds [A [B [C [D _]]]]]. rewrite A, <- D.
  destruct (z <? 0); constructor; auto.
Qed.

Lemma put_int_reads : forall t z, in_rep t z = true -> reads_as t (put_int z) z.
Proof.
  intros t z H. exists (z <? 0), (Z.abs z). split; [apply put_int_numeral|].
  apply in_rep_iff in H. destruct (rsigned t) eqn:S.
  - split; [destruct (Z.ltb_spec z 0); lia|lia].
  - pose proof (rmin_unsigned t S). destruct (Z.ltb_spec z 0); [lia|]. split; [lia|].
    rewrite Z.abs_eq by lia. symmetry. apply Z.mod_small. unfold rmax in H. rewrite S in H. lia.
Qed.

(** Spans. *)
Lemma span_digits_app : forall ds r, Forall decimal ds -> no_digit_first r -> span_digits (ds ++ r) = (ds, r).
Proof.
  induction ds as [|c ds IH]; intros r D N.
  - cbn [app]. destruct r as [|c r]; [reflexivity|]. cbn in *. destruct (is_dec c) eqn:E; auto.
    apply is_dec_iff in E. contradiction.
  - inversion D; subst. cbn. apply is_dec_iff in H1. rewrite H1, IH; auto.
Qed.
Lemma span_digits_inv : forall s ds r, span_digits s = (ds, r) -> s = ds ++ r /\ Forall decimal ds /\ no_digit_first r.
Proof.
  induction s as [|c s IH]; intros ds r H; cbn in H.
  - inversion H; subst. repeat split; auto.
  - destruct (is_dec c) eqn:E.
    + destruct (span_digits s) as [a b] eqn:F. inversion H; subst. destruct (IH a r eq_refl) as [A [B C]].
      subst s. repeat split; auto. constructor; auto. now apply is_dec_iff.
    + inversion H; subst. repeat split; auto. cbn. intros X. apply is_dec_iff in X. congruence.
Qed.

Lemma skip_spaces_app : forall b r, Forall blank b -> (match r with [] => True | c :: _ => ~ blank c end) ->
  skip_spaces (b ++ r) = r.
Proof.
  induction b as [|c b IH]; intros r B N.
  - cbn [app]. destruct r as [|c r]; [reflexivity|]. cbn. destruct (is_space c) eqn:E; auto.
    apply is_space_iff in E. contradiction.
  - inversion B; subst. cbn. apply is_space_iff in H1. rewrite H1. auto.
Qed.
Lemma skip_spaces_inv : forall s, exists b, s = b ++ skip_spaces s /\ Forall blank b /\
  match skip_spaces s with [] => True | c :: _ => ~ blank c end.
Proof.
  induction s as [|c s [b [A [B C]]]]; cbn.
  - exists []. auto.
  - destruct (is_space c) eqn:E.
    + exists (c :: b). cbn. rewrite <- A. repeat split; auto. constructor; auto. now apply is_space_iff.
    + exists []. repeat split; auto. intros X. apply is_space_iff in X. congruence.
Qed.

Lemma after_slash_app : forall a r, ~ In 47 a -> after_slash (a ++ 47 :: r) = Some r.
Proof.
  induction a as [|c a IH]; intros r N; cbn; auto.
  destruct (Z.eqb_spec c 47); [subst; exfalso; apply N; now left|]. apply IH. intros X. apply N. now right.
Qed.
Lemma after_slash_none : forall a, ~ In 47 a -> after_slash a = None.
Proof.
  induction a as [|c a IH]; intros N; cbn; auto.
  destruct (Z.eqb_spec c 47); [subst; exfalso; apply N; now left|]. apply IH. intros X. apply N. now right.
Qed.
Lemma after_slash_inv : forall s r, after_slash s = Some r -> exists a, s = a ++ 47 :: r /\ ~ In 47 a.
Proof.
  induction s as [|c s IH]; intros r H; cbn in H; [discriminate|]. destruct (Z.eqb_spec c 47).
  - inversion H; subst. exists []. auto.
  - destruct (IH r H) as [a [A B]]. exists (c :: a). subst s. split; auto. intros [X|X]; [auto|contradiction].
Qed.

(** Numbers. *)
Definition at_end (r : list Z) : bool := match r with [] => true | _ => false end.

Lemma get_number_ok : forall t s z r, reads_as t s z -> no_digit_first r ->
  get_number t (s ++ r) = (mkIn r false (at_end r), z).
Proof.
  intros t s z r [neg [m [N V]]] F.
  assert (G : forall ds, ds <> [] -> Forall decimal ds -> m = decimal_value ds ->
    (let '(ds, r2) := span_digits (ds ++ r) in
     let eof := match r2 with [] => true | _ => false end in
     match ds with
     | [] => (mkIn r2 true eof, 0)
     | _ =>
         let m := digits_int ds in
         if rsigned t then
           let z := if neg then - m else m in
           if in_rep t z then (mkIn r2 false eof, z)
           else (mkIn r2 true eof, if neg then rmin t else rmax t)
         else if m <=? rmax t then (mkIn r2 false eof, cast t (if neg then - m else m))
         else (mkIn r2 true eof, rmax t)
     end) = (mkIn r false (at_end r), z)).
  { intros ds D1 D2 D3. rewrite span_digits_app by auto. cbn zeta.
    rewrite digits_int_value, <- D3. destruct ds as [|c ds]; [contradiction|].
    destruct (rsigned t) eqn:S.
    - destruct V as [V1 V2]. rewrite <- V1. replace (in_rep t z) with true; [reflexivity|].
      symmetry. apply in_rep_iff. lia.
    - destruct V as [V1 V2]. destruct (Z.leb_spec m (rmax t)); [|lia]. unfold cast, wrap. rewrite S.
      rewrite V2. reflexivity. }
  unfold get_number. inversion N; subst.
  - destruct s as [|c s]; [contradiction|]. cbn [app]. inversion H0; subst. unfold decimal in H3.
    destruct (Z.eqb_spec c 45); [lia|]. destruct (Z.eqb_spec c 43); [lia|]. apply (G (c :: s)); auto.
  - cbn [app]. replace (43 =? 45) with false by reflexivity. replace (43 =? 43) with true by reflexivity. apply (G ds); auto.
  - cbn [app]. replace (45 =? 45) with true by reflexivity. apply (G ds); auto.
Qed.

Lemma get_number_inv : forall t s s' z, get_number t s = (s', z) -> failbit s' = false ->
  exists n, s = n ++ unread s' /\ reads_as t n z /\ no_digit_first (unread s') /\ eofbit s' = at_end (unread s').
Proof.
  intros t s s' z H F. unfold get_number in H.
  assert (G : forall neg r1 pre, s = pre ++ r1 ->
    (forall ds, ds <> [] -> Forall decimal ds -> numeral (pre ++ ds) neg (decimal_value ds)) ->
    (let '(ds, r2) := span_digits r1 in
     let eof := match r2 with [] => true | _ => false end in
     match ds with
     | [] => (mkIn r2 true eof, 0)
     | _ =>
         let m := digits_int ds in
         if rsigned t then
           let z := if neg : bool then - m else m in
           if in_rep t z then (mkIn r2 false eof, z)
           else (mkIn r2 true eof, if neg then rmin t else rmax t)
         else if m <=? rmax t then (mkIn r2 false eof, cast t (if neg then - m else m))
         else (mkIn r2 true eof, rmax t)
     end) = (s', z) ->
    exists n, s = n ++ unread s' /\ reads_as t n z /\ no_digit_first (unread s') /\ eofbit s' = at_end (unread s')).
  { clear H. intros neg r1 pre E P H. destruct (span_digits r1) as [ds r2] eqn:SP. cbn zeta in H.
    apply span_digits_inv in SP as [A [B C]]. subst r1.
    destruct ds as [|c ds]; [inversion H; subst; discriminate|].
    rewrite digits_int_value in H. set (dd := c :: ds) in *.
    assert (NN : dd <> []) by discriminate.
    destruct (rsigned t) eqn:S.
    - destruct (in_rep t (if neg then - decimal_value dd else decimal_value dd)) eqn:I; inversion H; subst; [|discriminate].
      exists (pre ++ dd). cbn [unread eofbit]. rewrite <- app_assoc. repeat split; auto.
      exists neg, (decimal_value dd). split; auto. rewrite S. apply in_rep_iff in I. auto.
    - destruct (Z.leb_spec (decimal_value dd) (rmax t)); inversion H; subst; [|discriminate].
      exists (pre ++ dd). cbn [unread eofbit]. rewrite <- app_assoc. repeat split; auto.
      exists neg, (decimal_value dd). split; auto. rewrite S. unfold cast, wrap. rewrite S. auto. }
  destruct s as [|c s].
  - apply (G false [] []); auto. intros. now constructor.
  - destruct (Z.eqb_spec c 45) as [->|].
    + apply (G true s [45]); auto. intros. now constructor.
    + destruct (Z.eqb_spec c 43) as [->|].
      * apply (G false s [43]); auto. intros. now constructor.
      * apply (G false (c :: s) []); auto. intros. now constructor.
Qed.

Lemma get_number_fail : forall t c s s' z, numeric t -> ~ blank c -> get_number t (c :: s) = (s', z) -> failbit s' = true ->
  unreadable t (c :: s) z (unread s') /\ eofbit s' = at_end (unread s').
Proof.
  intros t c s s' z NT NB H F. unfold get_number in H.
  assert (G : forall neg r1 pre, c :: s = pre ++ r1 ->
    (forall ds, ds <> [] -> Forall decimal ds -> numeral (pre ++ ds) neg (decimal_value ds)) ->
    (no_digit_first r1 -> unreadable t (c :: s) 0 r1) ->
    (let '(ds, r2) := span_digits r1 in
     let eof := match r2 with [] => true | _ => false end in
     match ds with
     | [] => (mkIn r2 true eof, 0)
     | _ =>
         let m := digits_int ds in
         if rsigned t then
           let z := if neg : bool then - m else m in
           if in_rep t z then (mkIn r2 false eof, z)
           else (mkIn r2 true eof, if neg then rmin t else rmax t)
         else if m <=? rmax t then (mkIn r2 false eof, cast t (if neg then - m else m))
         else (mkIn r2 true eof, rmax t)
     end) = (s', z) ->
    unreadable t (c :: s) z (unread s') /\ eofbit s' = at_end (unread s')).
  { clear H. intros neg r1 pre E P U H. destruct (span_digits r1) as [ds r2] eqn:SP. cbn zeta in H.
    apply span_digits_inv in SP as [A [B C]]. subst r1.
    destruct ds as [|d ds]; [injection H as <- <-; cbn [unread eofbit app] in *; auto|].
    rewrite digits_int_value in H. set (dd := d :: ds) in *.
    assert (NN : dd <> []) by discriminate. rewrite app_assoc in E. rewrite E.
    assert (NNEG : 0 <= decimal_value dd).
    { clearbody dd. clear -B. induction dd as [|x l IH]; cbn; [lia|]. inversion B; subst. unfold decimal in *. specialize (IH H2).
      assert (0 <= 10 ^ Z.of_nat (length l)) by lia. nia. }
    pose proof (numeric_rmax _ NT). pose proof (numeric_rmin _ NT).
    destruct (rsigned t) eqn:S.
    - destruct (in_rep t (if neg then - decimal_value dd else decimal_value dd)) eqn:I; injection H as <- <-; [discriminate|].
      split; [|reflexivity]. cbn [unread].
      replace (if neg then rmin t else rmax t) with (if neg && rsigned t then rmin t else rmax t) by (rewrite S; now destruct neg).
      apply (too_large t (pre ++ dd) neg (decimal_value dd)); auto. rewrite S.
      destruct (in_rep_iff t (if neg then - decimal_value dd else decimal_value dd)) as [_ X].
      destruct neg; cbn [andb]; apply Z.lt_nge; intros Y; (rewrite X in I; [discriminate|lia]).
    - destruct (Z.leb_spec (decimal_value dd) (rmax t)); injection H as <- <-; [discriminate|].
      split; [|reflexivity]. cbn [unread].
      replace (rmax t) with (if neg && rsigned t then rmin t else rmax t) by (rewrite S, andb_false_r; auto).
      apply (too_large t (pre ++ dd) neg (decimal_value dd)); auto. now rewrite S, andb_false_r. }
  destruct (Z.eqb_spec c 45) as [->|].
  - apply (G true s [45]); auto; intros; [now constructor|]. apply no_digits; auto.
  - destruct (Z.eqb_spec c 43) as [->|].
    + apply (G false s [43]); auto; intros; [now constructor|]. apply no_digits; auto.
    + apply (G false (c :: s) []); auto; intros; [now constructor|]. apply no_number; auto.
Qed.

Lemma numeral_first : forall s neg m, numeral s neg m -> exists c s', s = c :: s' /\ ~ blank c.
Proof.
  intros s neg m H. inversion H; subst.
  - destruct s as [|c s]; [contradiction|]. inversion H1; subst. exists c, s. split; auto. unfold blank, decimal in *. lia.
  - exists 43, ds. split; auto. unfold blank. lia.
  - exists 45, ds. split; auto. unfold blank. lia.
Qed.

Lemma get_int_ok : forall t b n z r old, Forall blank b -> reads_as t n z -> no_digit_first r ->
  get_int t (mkIn (b ++ n ++ r) false false) old = (mkIn r false (at_end r), z).
Proof.
  intros t b n z r old B R N. unfold get_int, sentry, good. cbn [failbit eofbit negb andb unread].
  destruct R as [neg [m [NU V]]]. destruct (numeral_first _ _ _ NU) as [c [n' [-> NB]]].
  rewrite skip_spaces_app by (auto; cbn; auto). cbn [app unread].
  change (c :: n' ++ r) with ((c :: n') ++ r). apply get_number_ok; auto. exists neg, m. auto.
Qed.

Lemma get_int_inv : forall t s old s' z, get_int t s old = (s', z) -> failbit s' = false ->
  failbit s = false /\ eofbit s = false /\
  exists b n, unread s = b ++ n ++ unread s' /\ Forall blank b /\ reads_as t n z /\
    no_digit_first (unread s') /\ eofbit s' = at_end (unread s').
Proof.
  intros t [u f e] old s' z H F. unfold get_int, sentry, good in H. cbn [failbit eofbit unread] in *.
  destruct f, e; cbn [negb andb] in H; try (inversion H; subst; cbn in F; discriminate).
  split; auto. split; auto. destruct (skip_spaces_inv u) as [b [A [B C]]].
  destruct (skip_spaces u) as [|c r] eqn:E; [inversion H; subst; discriminate|].
  cbn [unread] in H. apply get_number_inv in H as [n [D [G [K L]]]]; auto.
  exists b, n. rewrite A, D. auto.
Qed.

(** Fractions. *)
Theorem get_raw_ok : forall t text v rest old, fraction_text t text v rest ->
  get_raw t (mkIn text false false) old = (mkIn rest false (at_end rest), v).
Proof.
  intros t text v rest old [b1 [n [mid [b2 [d [E [B1 [RN [F [S [B2 [RD NR]]]]]]]]]]]].
  unfold get_raw. subst text. rewrite (get_int_ok t b1 n (num v)); auto.
  2:{ destruct mid; cbn in *; auto. unfold decimal. lia. }
  cbn beta iota zeta. assert (AE : at_end (mid ++ [47] ++ b2 ++ d ++ rest) = false) by (destruct mid; reflexivity).
  rewrite AE. unfold ignore_slash, good. cbn [failbit eofbit negb andb unread app].
  rewrite after_slash_app by auto. rewrite (get_int_ok t b2 d (den v)); auto. now destruct v.
Qed.

Theorem get_raw_inv : forall t s old s' v, get_raw t s old = (s', v) -> failbit s' = false ->
  failbit s = false /\ eofbit s = false /\ fraction_text t (unread s) v (unread s') /\ eofbit s' = at_end (unread s').
Proof.
  intros t s old s' v H F. unfold get_raw in H.
  destruct (get_int t s (num old)) as [s1 n] eqn:E1.
  destruct (get_int t (ignore_slash s1) (den old)) as [s3 d] eqn:E3. inversion H; subst. clear H.
  apply get_int_inv in E3 as [F2 [G2 [b2 [dd [A [B [C [D E]]]]]]]]; auto.
  unfold ignore_slash in *. destruct (good s1) eqn:GD; [|cbn in F2; discriminate].
  unfold good in GD. apply andb_true_iff in GD as [G1 G3]. apply negb_true_iff in G1, G3.
  destruct (after_slash (unread s1)) as [r|] eqn:AS; cbn in G2; [|discriminate]. cbn [unread] in A. subst r.
  apply after_slash_inv in AS as [mid [M1 M2]].
  apply get_int_inv in E1 as [F0 [G0 [b1 [nn [A1 [B1 [C1 [D1 H1]]]]]]]]; auto.
  repeat split; auto. exists b1, nn, mid, b2, dd. rewrite A1, M1. repeat split; auto.
  rewrite M1 in D1. destruct mid; auto. exact I.
Qed.

Lemma get_int_fail : forall t u old s' z, numeric t -> get_int t (mkIn u false false) old = (s', z) -> failbit s' = true ->
  eofbit s' = at_end (unread s') /\
  ((Forall blank u /\ z = old /\ unread s' = []) \/
   exists b s, u = b ++ s /\ Forall blank b /\ unreadable t s z (unread s')).
Proof.
  intros t u old s' z NT H F. unfold get_int, sentry, good in H. cbn [failbit eofbit unread negb andb] in H.
  destruct (skip_spaces_inv u) as [b [A [B C]]].
  destruct (skip_spaces u) as [|c r] eqn:E.
  - injection H as <- <-. split; [reflexivity|]. left. rewrite app_nil_r in A. subst. auto.
  - cbn [unread] in H. apply get_number_fail in H as [U V]; auto. split; auto. right. exists b, (c :: r). auto.
Qed.

Theorem get_raw_fail : forall t text old s' v, numeric t -> get_raw t (mkIn text false false) old = (s', v) -> failbit s' = true ->
  failed_read t old text v (unread s') /\ eofbit s' = at_end (unread s').
Proof.
  intros t text old s' v NT H F. unfold get_raw in H.
  destruct (get_int t (mkIn text false false) (num old)) as [s1 n] eqn:E1.
  destruct (get_int t (ignore_slash s1) (den old)) as [s3 d] eqn:E3. injection H as -> <-.
  destruct (failbit s1) eqn:F1.
  - apply get_int_fail in E1 as [V E1]; auto.
    assert (X : ignore_slash s1 = s1) by (unfold ignore_slash, good, set_fail; rewrite F1; cbn; destruct s1; cbn in *; congruence).
    rewrite X in E3. unfold get_int, sentry, good in E3. rewrite F1 in E3. cbn [negb andb] in E3. injection E3 as <- <-.
    unfold set_fail. cbn [unread eofbit]. split; auto.
    destruct E1 as [[A [-> B]]|[b [s [-> [A B]]]]].
    + rewrite B. replace (mkRaw (num old) (den old)) with old by (now destruct old). now constructor.
    + now apply no_numerator.
  - apply get_int_inv in E1 as [_ [_ [b [m [A [B [C [D V]]]]]]]]; auto. cbn [unread] in A. subst text.
    assert (X : (ignore_slash s1 = mkIn [] false true \/ ignore_slash s1 = mkIn [] true true) /\ ~ In 47 (unread s1) \/
      exists mid r, unread s1 = mid ++ 47 :: r /\ ~ In 47 mid /\ ignore_slash s1 = mkIn r false false).
    { unfold ignore_slash, good, set_fail. rewrite F1, V. destruct (unread s1) as [|c r] eqn:U; [left; cbn; auto|].
      cbn [at_end negb andb]. destruct (after_slash (c :: r)) as [r'|] eqn:AS.
      - apply after_slash_inv in AS as [mid [M1 M2]]. right. exists mid, r'. auto.
      - left. split; auto. intros I. apply in_split in I as [l1 [l2 L]].
        assert (Y : exists l1 l2, c :: r = l1 ++ 47 :: l2 /\ ~ In 47 l1).
        { clear -L. revert l1 l2 L. generalize (c :: r) as l. induction l as [|x l IH]; intros l1 l2 L; [destruct l1; discriminate|].
          destruct (Z.eq_dec x 47) as [->|]; [exists [], l; auto|].
          destruct l1 as [|y l1]; injection L as ? L; [congruence|]. destruct (IH l1 l2 L) as [p [q [-> Q]]].
          exists (x :: p), q. split; auto. intros [?|?]; auto. }
        destruct Y as [p [q [Y Q]]]. rewrite Y, after_slash_app in AS by auto. discriminate. }
    destruct X as [[X NI]|[mid [r [U [NI X]]]]].
    + assert (E : s' = mkIn [] true true /\ d = den old).
      { destruct X as [X|X]; rewrite X in E3; cbn in E3; injection E3 as <- <-; auto. }
      destruct E as [-> ->]. cbn [unread eofbit]. split; auto. now apply no_slash.
    + rewrite X in E3. apply get_int_fail in E3 as [V3 E3]; auto. split; auto.
      assert (ND : no_digit_first mid) by (rewrite U in D; destruct mid; cbn in *; auto).
      rewrite U. destruct E3 as [[A3 [-> B3]]|[b2 [s [-> [A3 B3]]]]].
      * rewrite B3. change (mid ++ 47 :: r) with (mid ++ [47] ++ r). now apply nothing_after_slash.
      * change (mid ++ 47 :: b2 ++ s) with (mid ++ [47] ++ b2 ++ s). now apply no_denominator.
Qed.

(** Without a slash the numerator is overwritten and the denominator kept. *)
Theorem get_raw_no_slash : forall t b n z mid old, Forall blank b -> reads_as t n z ->
  no_digit_first mid -> ~ In 47 mid ->
  get_raw t (mkIn (b ++ n ++ mid) false false) old = (mkIn [] true true, mkRaw z (den old)).
Proof.
  intros t b n z mid old B R N S. unfold get_raw. rewrite (get_int_ok t b n z) by auto.
  unfold ignore_slash, good. cbn [failbit eofbit negb andb unread].
  destruct mid as [|c mid]; cbn [at_end negb].
  - reflexivity.
  - rewrite after_slash_none by auto. reflexivity.
Qed.

(** A stream that is not good is not touched, and stays failed. *)
Theorem get_raw_bad : forall t s old, failbit s = true \/ eofbit s = true ->
  get_raw t s old = (mkIn (unread s) true (eofbit s), old).
Proof.
  intros t [u f e] old H. unfold get_raw, get_int, sentry, ignore_slash, good, set_fail. cbn in *.
  destruct old, f, e; cbn; try reflexivity. destruct H; discriminate.
Qed.

Lemma put_raw_text : forall t v rest, wf_raw t v -> no_digit_first rest ->
  fraction_text t (put_raw v ++ rest) v rest.
Proof.
  intros t v rest [A B] N. exists [], (put_int (num v)), [], [], (put_int (den v)).
  unfold put_raw. rewrite <- !app_assoc. cbn [app]. repeat split; auto; now apply put_int_reads.
Qed.

Theorem round_trip : forall t v rest old, wf_raw t v -> no_digit_first rest ->
  get_raw t (mkIn (put_raw v ++ rest) false false) old = (mkIn rest false (at_end rest), v).
Proof. intros. apply get_raw_ok; auto. now apply put_raw_text. Qed.

Lemma fraction_text_blanks : forall t b s v rest, Forall blank b -> fraction_text t s v rest -> fraction_text t (b ++ s) v rest.
Proof.
  intros t b s v rest B [b1 [n [mid [b2 [d [E H]]]]]]. exists (b ++ b1), n, mid, b2, d.
  rewrite E, <- !app_assoc. destruct H as [H1 H]. repeat split; try tauto. apply Forall_app. tauto.
Qed.

Theorem round_trip_all : forall t sep vs old, sep <> [] -> Forall blank sep -> Forall (wf_raw t) vs ->
  exists s, get_all t (length vs) (mkIn (put_all sep vs) false false) old = (s, vs) /\
    failbit s = false /\ Forall blank (unread s).
Proof.
  intros t sep vs old NS B. 
  assert (G : forall vs b, Forall blank b -> Forall (wf_raw t) vs ->
    exists s, get_all t (length vs) (mkIn (b ++ put_all sep vs) false false) old = (s, vs) /\
      failbit s = false /\ Forall blank (unread s)).
  { induction vs0 as [|v vs0 IH]; intros b Bb F; cbn [put_all length get_all].
    - eexists. rewrite app_nil_r. repeat split; auto.
    - inversion F; subst.
      assert (ND : no_digit_first (sep ++ put_all sep vs0)).
      { destruct sep as [|c sep]; [contradiction|]. cbn. inversion B; subst. unfold blank, decimal in *. lia. }
      rewrite (get_raw_ok t _ v (sep ++ put_all sep vs0) old).
      2:{ apply fraction_text_blanks; auto. apply put_raw_text; auto. }
      replace (at_end (sep ++ put_all sep vs0)) with false by (destruct sep; [contradiction|reflexivity]).
      destruct (IH sep B H2) as [s [E [A C]]]. rewrite E. exists s. auto. }
  intros F. apply (G vs []); auto.
Qed.

(** The printed text has no superfluous characters. *)
Lemma put_int_shortest : forall z s neg, numeral s neg (Z.abs z) -> (z < 0 -> neg = true) ->
  (length (put_int z) <= length s)%nat.
Proof.
  intros z s neg N H.
  destruct (put_digits_abs z) as [ds [A [B [C [D L]]]]].
  assert (K : forall ds', ds' <> [] -> decimal_value ds' = Z.abs z -> Forall decimal ds' -> (length ds <= length ds')%nat).
  { intros ds' N' V' F'.
    assert (UB : forall x, Forall decimal x -> 0 <= decimal_value x < 10 ^ Z.of_nat (length x)).
    { induction x as [|c x IH]; intros X; [cbn; lia|]. inversion X; subst. specialize (IH H3).
      cbn [decimal_value length]. rewrite Nat2Z.inj_succ, Z.pow_succ_r by lia. unfold decimal in H2. nia. }
    destruct L as [L|L]; [destruct ds'; [contradiction|cbn; lia]|].
    destruct ds as [|c ds]; [contradiction|]. cbn [hd] in L. cbn [decimal_value] in D. cbn [length].
    inversion C; subst. specialize (UB ds' F') as U1. specialize (UB ds H3) as U2.
    unfold decimal in H2.
    assert (10 ^ Z.of_nat (length ds) < 10 ^ Z.of_nat (length ds')) by nia.
    apply Z.pow_lt_mono_r_iff in H0; lia. }
  unfold put_int. rewrite A. destruct (Z.ltb_spec z 0).
  - specialize (H H0). inversion N; subst; try discriminate. cbn [length]. 
    specialize (K ds0). intuition lia.
  - inversion N; subst; cbn [length]; specialize (K ds0) || specialize (K s); intuition (auto; lia).
Qed.
