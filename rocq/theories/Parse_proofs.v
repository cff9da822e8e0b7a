(** Proofs about scanning and digit conversion. *)

From Coq Require Import ZArith List Bool Lia.
From Verif Require Import Machine Raw Parse Parse_spec.
From Verif Require Import Machine_proofs Value_proofs.
Import ListNotations.
Open Scope Z_scope.

(** ** Digit sequences *)

Definition base_ok (base : Z) : Prop := base = 10 \/ base = 16.

Lemma digit_value_cases : forall c d, digit_value c = Some d <->
  (48 <= c <= 57 /\ d = c - 48) \/ (97 <= c <= 102 /\ d = c - 87) \/ (65 <= c <= 70 /\ d = c - 55).
Proof.
  intros c d. unfold digit_value.
  destruct ((48 <=? c) && (c <=? 57)) eqn:A; [|destruct ((97 <=? c) && (c <=? 102)) eqn:B; [|destruct ((65 <=? c) && (c <=? 70)) eqn:C]];
    (split; [intros H; inversion H; subst; lia|intros H; try (f_equal; lia); lia]).
Qed.

Lemma is_digit_cases : forall base c, base_ok base ->
  is_digit base c <-> 48 <= c <= 57 \/ base = 16 /\ (97 <= c <= 102 \/ 65 <= c <= 70).
Proof.
  intros base c B. unfold is_digit. split.
  - intros [d [E L]]. apply digit_value_cases in E. unfold base_ok in B. lia.
  - intros H. destruct H as [H|[-> [H|H]]].
    + exists (c - 48). rewrite digit_value_cases. unfold base_ok in B. lia.
    + exists (c - 87). rewrite digit_value_cases. lia.
    + exists (c - 55). rewrite digit_value_cases. lia.
Qed.

Lemma digit_test : forall base c, base_ok base ->
  (((c <? ch_0) || (c >? ch_9))
              && ((((c <? ch_a) || (c >? ch_f)) && ((c <? ch_A) || (c >? ch_F)))
                  || negb (base =? 16))) = false <-> is_digit base c.
Proof.
  intros base c B. rewrite is_digit_cases by auto. unfold base_ok, ch_0, ch_9, ch_a, ch_f, ch_A, ch_F in *.
  lia.
Qed.

Lemma quote_not_digit : forall base, ~ is_digit base 39.
Proof. intros base [d [E _]]. discriminate. Qed.

Lemma valid_loop_spec : forall base s, base_ok base ->
  (valid_digits_loop false s base = true <-> digit_seq base s) /\
  (valid_digits_loop true s base = true <->
     s = [] \/ digit_seq base s \/ exists s', s = 39 :: s' /\ digit_seq base s').
Proof.
  intros base s B. induction s as [|c s [IHf IHt]]; cbn [valid_digits_loop].
  - split; split; intros H; auto; try discriminate. inversion H.
  - destruct (Z.eqb_spec c ch_quote) as [->|Q].
    + cbn [negb]. split.
      * split; [discriminate|]. intros H. exfalso.
        inversion H; subst; eapply quote_not_digit; eauto.
      * rewrite IHf. split.
        -- intros H. right. right. exists s. auto.
        -- intros [H|[H|[s' [H K]]]]; [discriminate| |now inversion H].
           exfalso. inversion H; subst; eapply quote_not_digit; eauto.
    + assert (D : valid_digits_loop true s base = true /\ is_digit base c <-> digit_seq base (c :: s)).
      { rewrite IHt. split.
        - intros [[->|[H|[s' [-> H]]]] D]; [now apply ds_one|now apply ds_digit|now apply ds_quote].
        - intros H. inversion H; subst; split; auto. right. right. eauto. }
      pose proof (digit_test base c B) as T.
      destruct (_ && _) eqn:E.
      * assert (ND : ~ is_digit base c) by (intros K; apply T in K; discriminate).
        split; (split; [discriminate|]).
        -- intros H. apply D in H. tauto.
        -- intros [H|[H|[s' [H K]]]]; [discriminate| |now inversion H]. apply D in H. tauto.
      * assert (YD : is_digit base c) by now apply T.
        split.
        -- rewrite <- D. tauto.
        -- split; [intros H; right; left; apply D; auto|].
           intros [H|[H|[s' [H K]]]]; [discriminate| |now inversion H]. apply D in H. tauto.
Qed.

Lemma valid_digits_iff : forall base s, base_ok base ->
  is_valid_digit_sequence s base = true <-> digit_seq base s.
Proof. intros base s B. apply valid_loop_spec; auto. Qed.

(** Every character of a digit sequence is a digit or a quote. *)
Definition digit_char (base c : Z) : Prop := c = 39 \/ is_digit base c.

Lemma digit_seq_chars : forall base s, digit_seq base s -> Forall (digit_char base) s.
Proof.
  intros base s H. unfold digit_char. induction H; repeat (apply Forall_cons; auto).
Qed.

Lemma digit_value_bounds : forall base c, is_digit base c -> exists d, digit_value c = Some d /\ 0 <= d < base /\ d <= 15.
Proof.
  intros base c [d [E L]]. exists d. split; auto.
  apply digit_value_cases in E. lia.
Qed.

Lemma digit_as_int_value : forall t base c d, wf_rep t -> is_digit base c -> digit_value c = Some d ->
  digit_as_int t c = d.
Proof.
  intros t base c d W I E. destruct (digit_value_bounds _ _ I) as [d' [E' [B B']]].
  assert (d' = d) by congruence. subst d'.
  assert (C : cast t d = d).
  { unfold cast. apply wrap_id; auto. rewrite in_rep_iff. pose proof (rmax_big t W). pose proof (rmin_nonpos t W). lia. }
  transitivity (cast t d); [|exact C]. clear C. apply digit_value_cases in E. unfold digit_as_int, ch_A, ch_F, ch_a, ch_f, ch_0.
  destruct ((c >=? 65) && (c <=? 70)) eqn:T1; [f_equal; lia|].
  destruct ((c >=? 97) && (c <=? 102)) eqn:T2; f_equal; lia.
Qed.

Lemma digits_of_app : forall a b, digits_of (a ++ b) = digits_of a ++ digits_of b.
Proof.
  induction a as [|c a IH]; intros b; cbn; auto. rewrite IH. destruct (digit_value c); reflexivity.
Qed.

Lemma seq_value_snoc : forall base s c d, digit_value c = Some d ->
  seq_value base (s ++ [c]) = seq_value base s * base + d.
Proof.
  intros base s c d E. unfold seq_value. rewrite digits_of_app. cbn [digits_of]. rewrite E.
  now rewrite fold_left_app.
Qed.
Lemma seq_value_snoc_quote : forall base s, seq_value base (s ++ [39]) = seq_value base s.
Proof. intros base s. unfold seq_value. rewrite digits_of_app. cbn. now rewrite app_nil_r. Qed.
Lemma num_digits_snoc : forall s c d, digit_value c = Some d -> num_digits (s ++ [c]) = num_digits s + 1.
Proof.
  intros s c d E. unfold num_digits. rewrite digits_of_app. cbn [digits_of]. rewrite E, app_length. cbn [length]. lia.
Qed.
Lemma num_digits_snoc_quote : forall s, num_digits (s ++ [39]) = num_digits s.
Proof. intros s. unfold num_digits. rewrite digits_of_app. cbn. now rewrite app_nil_r. Qed.
Lemma num_digits_nonneg : forall s, 0 <= num_digits s.
Proof. intros. unfold num_digits. lia. Qed.

(** ** Conversion of digits *)

Lemma seq_value_bounds : forall base s, 2 <= base -> Forall (digit_char base) s ->
  0 <= seq_value base s < base ^ num_digits s.
Proof.
  intros base s B. induction s as [|c s IH] using rev_ind; intros F.
  - cbn. lia.
  - apply Forall_app in F as [F1 F2]. inversion F2; subst. specialize (IH F1).
    destruct H1 as [->|D].
    + now rewrite seq_value_snoc_quote, num_digits_snoc_quote.
    + destruct (digit_value_bounds _ _ D) as [d [E [L _]]].
      rewrite (seq_value_snoc base s c d E), (num_digits_snoc s c d E).
      pose proof (num_digits_nonneg s). rewrite Z.pow_add_r by lia. rewrite Z.pow_1_r. nia.
Qed.

(** Signed types: the result is the value, and it is defined exactly when the
    power of the base one past the last digit fits. *)
Lemma digits_loop_spec : forall t base, wf_rep t -> 2 <= base <= 16 ->
  forall s r p, Forall (digit_char base) s -> 0 <= r < p -> p <= rmax t ->
  digits_loop t base (rev s) r p =
    if p * base ^ num_digits s <=? rmax t then Ok (r + p * seq_value base s)
    else if rsigned t then UB Overflow else digits_loop t base (rev s) r p.
Proof.
  intros t base W B s. pose proof (rmin_nonpos t W) as RN.
  induction s as [|c s IH] using rev_ind; intros r p F R P.
  - cbn. rewrite Z.mul_1_r, Z.mul_0_r, Z.add_0_r. rewrite (proj2 (Z.leb_le _ _)) by lia. reflexivity.
  - apply Forall_app in F as [F1 F2]. inversion F2; subst. rewrite rev_app_distr. cbn [rev app].
    cbn [digits_loop]. destruct H1 as [->|D].
    + cbn [Z.eqb]. unfold ch_quote. cbn [Z.eqb Pos.eqb]. rewrite seq_value_snoc_quote, num_digits_snoc_quote.
      now apply IH.
    + destruct (digit_value_bounds _ _ D) as [d [E [L L']]].
      destruct (Z.eqb_spec c ch_quote) as [->|Q]; [exfalso; eapply quote_not_digit; eauto|].
      rewrite (digit_as_int_value t base c d W D E).
      rewrite (seq_value_snoc base s c d E), (num_digits_snoc s c d E).
      pose proof (num_digits_nonneg s) as NN. rewrite Z.pow_add_r by lia. rewrite Z.pow_1_r.
      assert (PP : 1 <= base ^ num_digits s) by (pose proof (Z.pow_pos_nonneg base (num_digits s)); lia).
      set (e := base ^ num_digits s) in *.
      destruct (Z.leb_spec (p * (e * base)) (rmax t)) as [G|G].
      * assert (p * base <= rmax t) by nia.
        unfold m_mul, m_add. rewrite (arith_in t (d * p)); auto. 2:{ rewrite in_rep_iff. nia. }
        cbn [bind]. rewrite (arith_in t (r + d * p)); auto. 2:{ rewrite in_rep_iff. nia. }
        cbn [bind]. rewrite (arith_in t (p * base)); auto. 2:{ rewrite in_rep_iff. nia. }
        cbn [bind]. rewrite IH; auto; [|nia].
        fold e. rewrite (proj2 (Z.leb_le _ _)) by nia. f_equal. ring.
      * destruct (rsigned t) eqn:S; [|reflexivity].
        unfold m_mul, m_add, arith. rewrite S.
        destruct (in_rep t (d * p)); cbn [bind]; [|reflexivity].
        destruct (in_rep t (r + d * p)); cbn [bind]; [|reflexivity].
        destruct (in_rep t (p * base)) eqn:I; cbn [bind]; [|reflexivity].
        rewrite in_rep_iff in I. rewrite IH; auto; [|nia|lia].
        fold e. rewrite (proj2 (Z.leb_gt _ _)) by nia. reflexivity.
Qed.

Lemma mod_step : forall r x y v m, m <> 0 ->
  ((r + x mod m) mod m + (y mod m) * v) mod m = (r + x + y * v) mod m.
Proof.
  intros r x y v m M. rewrite Z.add_mod_idemp_l by auto.
  replace (r + x mod m + y mod m * v) with (r + y mod m * v + x mod m) by ring.
  rewrite Z.add_mod_idemp_r by auto. replace (r + y mod m * v + x) with (r + x + y mod m * v) by ring.
  rewrite <- Z.add_mod_idemp_r, Z.mul_mod_idemp_l, Z.add_mod_idemp_r by auto. reflexivity.
Qed.

(** Unsigned types: the value modulo 2^bits. *)
Lemma digits_loop_unsigned : forall t base, wf_rep t -> rsigned t = false -> 2 <= base <= 16 ->
  forall s r p, Forall (digit_char base) s -> r = r mod 2 ^ rbits t ->
  digits_loop t base (rev s) r p = Ok ((r + p * seq_value base s) mod 2 ^ rbits t).
Proof.
  intros t base W S B s. assert (M : 2 ^ rbits t <> 0).
  { unfold wf_rep in W. pose proof (Z.pow_pos_nonneg 2 (rbits t)). lia. }
  induction s as [|c s IH] using rev_ind; intros r p F R.
  - cbn. now rewrite Z.mul_0_r, Z.add_0_r, <- R.
  - apply Forall_app in F as [F1 F2]. inversion F2; subst. rewrite rev_app_distr. cbn [rev app digits_loop].
    destruct H1 as [->|D].
    + unfold ch_quote. cbn [Z.eqb Pos.eqb]. rewrite seq_value_snoc_quote. now apply IH.
    + destruct (digit_value_bounds _ _ D) as [d [E [L L']]].
      destruct (Z.eqb_spec c ch_quote) as [->|Q]; [exfalso; eapply quote_not_digit; eauto|].
      rewrite (digit_as_int_value t base c d W D E), (seq_value_snoc base s c d E).
      unfold m_mul, m_add, arith. rewrite S. cbn [bind]. unfold wrap. rewrite S.
      rewrite IH; auto; [|now rewrite Z.mod_mod].
      f_equal. rewrite mod_step by auto.
      f_equal. ring.
Qed.

Lemma empty_or_chars : forall base s, empty_or (digit_seq base) s -> Forall (digit_char base) s.
Proof. intros base s [->|H]; [constructor|now apply digit_seq_chars]. Qed.

Lemma to_int_signed : forall t base s, wf_rep t -> rsigned t = true -> 2 <= base <= 16 ->
  Forall (digit_char base) s ->
  digit_sequence_to_int t s base =
    if base ^ num_digits s <=? rmax t then Ok (seq_value base s) else UB Overflow.
Proof.
  intros t base s W S B F. unfold digit_sequence_to_int. pose proof (rmax_big t W).
  rewrite digits_loop_spec; auto; try lia. rewrite S, !Z.mul_1_l. reflexivity.
Qed.

Lemma to_int_unsigned : forall t base s, wf_rep t -> rsigned t = false -> 2 <= base <= 16 ->
  Forall (digit_char base) s ->
  digit_sequence_to_int t s base = Ok (seq_value base s mod 2 ^ rbits t).
Proof.
  intros t base s W S B F. unfold digit_sequence_to_int.
  rewrite digits_loop_unsigned; auto. now rewrite Z.mul_1_l.
Qed.

Lemma count_digits_spec : forall base s, Forall (digit_char base) s -> Z.of_nat (length s) <= 2147483647 ->
  count_digits s = num_digits s.
Proof.
  intros base s F L. unfold count_digits.
  assert (G : forall s n, Forall (digit_char base) s -> 0 <= n -> n + Z.of_nat (length s) <= 2147483647 ->
    fold_left (fun n c => if c =? ch_quote then n else cast uint32 (n + 1)) s n = n + num_digits s).
  { clear. induction s as [|c s IH]; intros n F N L; cbn [fold_left].
    - cbn. lia.
    - inversion F; subst. cbn [length] in L. unfold num_digits in *. cbn [digits_of].
      destruct (Z.eqb_spec c ch_quote) as [->|Q].
      + cbn. rewrite IH by (auto; lia). reflexivity.
      + destruct H1 as [->|D]; [now elim Q|]. destruct (digit_value_bounds _ _ D) as [d [E _]]. rewrite E.
        assert (C : cast uint32 (n + 1) = n + 1).
        { unfold cast. apply wrap_id; [unfold wf_rep; cbn; lia|]. apply in_rep_iff. cbn. lia. }
        rewrite C, IH by (auto; lia). cbn [length]. lia. }
  rewrite G by (auto; lia). rewrite Z.add_0_l.
  assert (num_digits s <= Z.of_nat (length s)).
  { unfold num_digits. clear. induction s as [|c s IH]; cbn; [lia|]. destruct (digit_value c); cbn [length]; lia. }
  pose proof (num_digits_nonneg s).
  unfold cast. apply wrap_id; [unfold wf_rep; cbn; lia|]. apply in_rep_iff. cbn. lia.
Qed.

(** ** The scanner, with positions replaced by splitting *)

Fixpoint split_at (c : Z) (s : list Z) : option (list Z * list Z) :=
  match s with
  | [] => None
  | x :: s' =>
      if x =? c then Some ([], s')
      else match split_at c s' with Some (a, b) => Some (x :: a, b) | None => None end
  end.

Lemma split_at_some : forall c s a b, split_at c s = Some (a, b) <-> s = a ++ c :: b /\ ~ In c a.
Proof.
  intros c. induction s as [|x s IH]; intros a b; cbn [split_at].
  - split; [discriminate|]. intros [H _]. destruct a; discriminate.
  - destruct (Z.eqb_spec x c) as [->|N].
    + split.
      * intros H; inversion H; subst. split; auto.
      * intros [H K]. destruct a as [|y a]; cbn in H; inversion H; subst; auto. exfalso. apply K. now left.
    + destruct (split_at c s) as [[a' b']|] eqn:E.
      * destruct (proj1 (IH a' b') eq_refl) as [-> K]. split.
        -- intros H; inversion H; subst. split; auto. intros [H'|H']; auto.
        -- intros [H K']. destruct a as [|y a]; cbn in H; inversion H; subst; [now elim N|].
           assert (Some (a', b') = Some (a, b)) as X; [|now inversion X].
           apply IH. split; auto. intros H'; apply K'; now right.
      * split; [discriminate|]. intros [H K]. destruct a as [|y a]; cbn in H; inversion H; subst; [now elim N|].
        exfalso. assert (None = Some (a, b)) as X; [|discriminate].
        apply IH. split; auto. intros H'; apply K; now right.
Qed.

Lemma split_at_none : forall c s, split_at c s = None <-> ~ In c s.
Proof.
  intros c. induction s as [|x s IH]; cbn [split_at].
  - split; auto.
  - destruct (Z.eqb_spec x c) as [->|N].
    + split; [discriminate|]. intros H. elim H. now left.
    + destruct (split_at c s) as [[a b]|]; split; intros H; try discriminate.
      * exfalso. assert (~ In c s) as X by (intros K; apply H; now right). apply IH in X. discriminate.
      * intros [K|K]; [auto|]. now apply (proj1 IH).
      * reflexivity.
Qed.

Lemma find_from_split : forall c s i, sv_find_from i s c =
  match split_at c s with Some (a, _) => i + sv_size a | None => npos end.
Proof.
  intros c. induction s as [|x s IH]; intros i; cbn [sv_find_from split_at]; auto.
  destruct (x =? c); [cbn; lia|]. rewrite IH. destruct (split_at c s) as [[a b]|]; auto.
  unfold sv_size. cbn [length]. lia.
Qed.

Lemma find_split : forall c s, sv_find s c =
  match split_at c s with Some (a, _) => sv_size a | None => npos end.
Proof. intros. unfold sv_find. rewrite find_from_split. destruct (split_at c s) as [[a b]|]; auto. Qed.

Lemma take_app : forall a b, sv_take (a ++ b) (sv_size a) = a.
Proof.
  intros a b. unfold sv_take, sv_size. rewrite app_length.
  replace (Z.to_nat (Z.min _ _)) with (length a) by lia. rewrite firstn_app, firstn_all, Nat.sub_diag. cbn. apply app_nil_r.
Qed.

Lemma take_all : forall s, sv_size s <= npos -> sv_take s npos = s.
Proof.
  intros s H. unfold sv_take. rewrite Z.min_r by auto. unfold sv_size. rewrite Nat2Z.id. apply firstn_all.
Qed.

Lemma remove_app : forall a b, sv_remove_prefix (a ++ b) (sv_size a) = Ok b.
Proof.
  intros a b. unfold sv_remove_prefix, sv_size. rewrite app_length.
  rewrite (proj2 (Z.leb_le _ _)) by lia. rewrite Nat2Z.id. rewrite skipn_app, skipn_all, Nat.sub_diag. reflexivity.
Qed.

Lemma remove_app_1 : forall a c b, sv_remove_prefix (a ++ c :: b) (sv_size a + 1) = Ok b.
Proof.
  intros a c b. replace (a ++ c :: b) with ((a ++ [c]) ++ b) by (rewrite <- app_assoc; reflexivity).
  replace (sv_size a + 1) with (sv_size (a ++ [c])); [apply remove_app|].
  unfold sv_size. rewrite app_length. cbn. lia.
Qed.

Definition small (s : list Z) : Prop := sv_size s < 2 ^ 63.

Lemma last_pos_eq : forall s, s <> [] -> small s -> cast uint64 (sv_size s - 1) = sv_size s - 1.
Proof.
  intros s N S. unfold cast. apply wrap_id; [unfold wf_rep; cbn; lia|]. apply in_rep_iff.
  unfold small in S. destruct s; [congruence|]. unfold sv_size in *. cbn [length] in *.
  change (rmin uint64) with 0. change (rmax uint64) with 18446744073709551615. lia.
Qed.

Lemma npos_not_last : forall s, s <> [] -> small s -> (npos =? cast uint64 (sv_size s - 1)) = false.
Proof.
  intros s N S. rewrite last_pos_eq by auto. apply Z.eqb_neq. unfold small, npos in *.
  unfold sv_size in *. change (2 ^ 64 - 1) with 18446744073709551615. lia.
Qed.

Lemma split_last : forall a c b, small (a ++ c :: b) ->
  (sv_size a =? cast uint64 (sv_size (a ++ c :: b) - 1)) = sv_empty b.
Proof.
  intros a c b S. rewrite last_pos_eq; auto; [|destruct a; discriminate].
  unfold sv_size. rewrite app_length. cbn [length]. destruct b as [|x b]; cbn [length sv_empty].
  - apply Z.eqb_eq. lia.
  - apply Z.eqb_neq. lia.
Qed.

Lemma size_not_npos : forall a c b, small (a ++ c :: b) -> (sv_size a =? npos) = false.
Proof.
  intros a c b S. apply Z.eqb_neq. unfold small, sv_size, npos in *. rewrite app_length in S.
  change (2 ^ 64 - 1) with 18446744073709551615. lia.
Qed.

Definition strip_prefix (s : list Z) : bool * list Z :=
  match s with
  | 48 :: x :: c :: s' => if (x =? 120) || (x =? 88) then (true, c :: s') else (false, s)
  | _ => (false, s)
  end.

Definition split_exponent (hex : bool) (s : list Z) : option (list Z * list Z) :=
  match split_at (if hex then 112 else 101) s with
  | Some ab => Some ab
  | None => split_at (if hex then 80 else 69) s
  end.

Definition empty_or_valid (base : Z) (s : list Z) : bool :=
  sv_empty s || is_valid_digit_sequence s base.

Definition scan_fun (s : list Z) : option scan_results :=
  let '(hex, body) := strip_prefix s in
  let base := if hex then 16 else 10 in
  match split_at 46 body with
  | None => None
  | Some (w, rest) =>
      if negb (empty_or_valid base w) then None
      else if sv_empty rest then
        if hex || sv_empty w then None else Some (mkScan 10 w [] 0 false [])
      else
        match split_exponent hex rest with
        | None =>
            if hex then None
            else if negb (is_valid_digit_sequence rest base) then None
            else Some (mkScan base w rest (count_digits rest) false [])
        | Some (f, e) =>
            if sv_empty w && sv_empty f then None
            else if negb (empty_or_valid base f) then None
            else
              match e with
              | [] => None
              | c :: e' =>
                  let '(neg, ds) := if c =? 45 then (true, e') else if c =? 43 then (false, e') else (false, e) in
                  if negb (is_valid_digit_sequence ds 10) then None
                  else Some (mkScan base w f (count_digits f) neg ds)
              end
        end
  end.

Lemma strip_prefix_eq : forall s, 2 <= sv_size s ->
  let hex := (sv_size s >? 2) && (sv_eqb (sv_take s 2) [ch_0; ch_x] || sv_eqb (sv_take s 2) [ch_0; ch_X]) in
  fst (strip_prefix s) = hex /\
  (if hex then sv_remove_prefix s 2 else Ok s) = Ok (snd (strip_prefix s)) /\
  snd (strip_prefix s) <> [] /\ sv_size (snd (strip_prefix s)) <= sv_size s /\
  (hex = false -> 2 <= sv_size (snd (strip_prefix s))).
Proof.
  intros s L. unfold sv_size in L. destruct s as [|a [|b [|c s]]]; cbn [length] in L; try lia.
  - cbn [sv_size length]. change (Z.of_nat 2 >? 2) with false. cbn [andb].
    assert (E : strip_prefix [a; b] = (false, [a; b])).
    { cbn. destruct a as [|p|p]; auto. repeat (destruct p as [p|p|]; auto). }
    rewrite E. cbn [fst snd]. split; auto. split; auto. split; [discriminate|]. split; [lia|]. auto.
  - assert (G : (sv_size (a :: b :: c :: s) >? 2) = true) by (apply Z.gtb_lt; unfold sv_size; cbn [length]; lia).
    assert (T : sv_take (a :: b :: c :: s) 2 = [a; b]).
    { unfold sv_take, sv_size. replace (Z.to_nat _) with 2%nat by (cbn [length]; lia). reflexivity. }
    assert (R : sv_remove_prefix (a :: b :: c :: s) 2 = Ok (c :: s)).
    { change 2 with (sv_size [a; b]). change (a :: b :: c :: s) with ([a; b] ++ c :: s). apply remove_app. }
    rewrite G, T, R. cbn [sv_eqb andb]. rewrite !andb_true_r, <- andb_orb_distrib_r.
    unfold ch_0, ch_x, ch_X.
    assert (E : strip_prefix (a :: b :: c :: s) =
      if (a =? 48) && ((b =? 120) || (b =? 88)) then (true, c :: s) else (false, a :: b :: c :: s)).
    { destruct (Z.eqb_spec a 48) as [->|N]; [reflexivity|]. cbn [andb].
      unfold strip_prefix. destruct a as [|p|p]; auto. repeat (destruct p as [p|p|]; auto). now elim N. }
    rewrite E. destruct ((a =? 48) && _); cbn [fst snd]; unfold sv_size; cbn [length];
      (split; [auto|split; [auto|split; [discriminate|split; [lia|]]]]); [discriminate|lia].
Qed.

Lemma digit_chars_not_in : forall base s c, Forall (digit_char base) s -> base_ok base ->
  c <> 39 -> ~ is_digit base c -> ~ In c s.
Proof.
  intros base s c F B N D H. rewrite Forall_forall in F. destruct (F c H); auto.
Qed.

Lemma exponent_letter_not_digit : forall (hex : bool),
  ~ is_digit (if hex then 16 else 10) (if hex then 112 else 101) /\
  ~ is_digit (if hex then 16 else 10) (if hex then 80 else 69).
Proof.
  intros hex. rewrite !is_digit_cases by (unfold base_ok; destruct hex; auto). destruct hex; split; lia.
Qed.

Lemma split_exponent_none : forall hex s, Forall (digit_char (if hex : bool then 16 else 10)) s ->
  split_exponent hex s = None.
Proof.
  intros hex s F. destruct (exponent_letter_not_digit hex) as [L U].
  assert (B : base_ok (if hex then 16 else 10)) by (unfold base_ok; destruct hex; auto).
  unfold split_exponent. rewrite (proj2 (split_at_none (if hex then 112 else 101) s)).
  - apply split_at_none. apply (digit_chars_not_in _ _ _ F B); auto. destruct hex; lia.
  - apply (digit_chars_not_in _ _ _ F B); auto. destruct hex; lia.
Qed.

Lemma exponent_pos_eq : forall hex s, small s ->
  (let lower_pos := sv_find s (if hex : bool then 112 else 101) in
   if negb (lower_pos =? npos) then lower_pos else sv_find s (if hex then 80 else 69)) =
  match split_exponent hex s with Some (a, _) => sv_size a | None => npos end.
Proof.
  intros hex s S. cbv zeta. rewrite !find_split. unfold split_exponent.
  destruct (split_at (if hex then 112 else 101) s) as [[a b]|] eqn:E.
  - apply split_at_some in E as [-> _]. rewrite (size_not_npos _ _ _ S). reflexivity.
  - rewrite Z.eqb_refl. reflexivity.
Qed.

Lemma split_exponent_app : forall hex s a b, split_exponent hex s = Some (a, b) -> exists c, s = a ++ c :: b.
Proof.
  intros hex s a b H. unfold split_exponent in H. destruct (split_at _ s) as [[a' b']|] eqn:E.
  - inversion H; subst. apply split_at_some in E as [-> _]. eauto.
  - apply split_at_some in H as [-> _]. eauto.
Qed.

Lemma scan_short : forall s, sv_size s < 2 -> scan_fun s = None.
Proof.
  intros s L. unfold sv_size in L. destruct s as [|c [|]]; cbn [length] in L; try lia; [reflexivity|].
  unfold scan_fun. assert (E : strip_prefix [c] = (false, [c])).
  { cbn. destruct c as [|p|p]; auto. repeat (destruct p as [p|p|]; auto). }
  rewrite E. cbn [split_at]. destruct (c =? 46); reflexivity.
Qed.

Theorem scan_eq : forall s, small s -> scan_floating_point_string s = Ok (scan_fun s).
Proof.
  intros s S. unfold scan_floating_point_string.
  destruct (Z.ltb_spec (sv_size s) 2) as [L|L]; [now rewrite scan_short|].
  destruct (strip_prefix_eq s L) as [E1 [E2 [E3 [E4 E5]]]]. cbv zeta in *.
  rewrite <- E1 in *. unfold scan_fun. destruct (strip_prefix s) as [hex body]. cbn [fst snd] in *.
  rewrite E2. cbn [bind].
  assert (SB : small body) by (unfold small in *; lia). clear E1 E2 E4 L S s.
  assert (B : base_ok (if hex then 16 else 10)) by (unfold base_ok; destruct hex; auto).
  assert (X1 : (if (if hex then 16 else 10) =? 10 then ch_e else ch_p) = if hex then 112 else 101) by (destruct hex; reflexivity).
  assert (X2 : (if (if hex then 16 else 10) =? 10 then ch_E else ch_P) = if hex then 80 else 69) by (destruct hex; reflexivity).
  assert (X3 : ((if hex then 16 else 10) =? 16) = hex) by (destruct hex; reflexivity).
  assert (X4 : ((if hex then 16 else 10) =? 10) = negb hex) by (destruct hex; reflexivity).
  rewrite X1, X2, X3, X4. clear X1 X2 X3 X4.
  rewrite (find_split ch_dot). unfold ch_dot.
  destruct (split_at 46 body) as [[w rest]|] eqn:SP.
  - apply split_at_some in SP as [-> NI].
    rewrite take_app, (split_last _ _ _ SB), (size_not_npos _ _ _ SB). unfold empty_or_valid.
    destruct (negb (sv_empty w || is_valid_digit_sequence w (if hex then 16 else 10))) eqn:VW; [reflexivity|]. clear VW.
    cbn [negb andb].
    destruct (sv_empty rest) eqn:ER.
    + destruct hex; [reflexivity|]. cbn [orb negb].
      destruct w as [|c w]; cbn [sv_empty]; [|reflexivity].
      exfalso. destruct rest; [|discriminate]. specialize (E5 eq_refl). unfold sv_size in E5. cbn in E5. lia.
    + rewrite remove_app_1. cbn [bind].
      assert (SR : small rest) by (unfold small, sv_size in *; rewrite app_length in SB; cbn [length] in SB; lia).
      assert (NR : rest <> []) by (intros ->; discriminate).
      pose proof (exponent_pos_eq hex rest SR) as X. cbv zeta in X. rewrite X. clear X.
      destruct (split_exponent hex rest) as [[f e]|] eqn:SE.
      * destruct (split_exponent_app _ _ _ _ SE) as [c ->].
        rewrite (split_last _ _ _ SR), (size_not_npos _ _ _ SR), take_app, remove_app_1.
        destruct e as [|x e]; cbn [sv_empty].
        { destruct (sv_empty w && sv_empty f); [reflexivity|]. destruct (negb (sv_empty f || _)); reflexivity. }
        rewrite andb_false_r.
        destruct (sv_empty w && sv_empty f); [reflexivity|].
        destruct (negb (sv_empty f || _)); [reflexivity|]. cbn [bind sv_front]. unfold ch_minus, ch_plus.
        assert (R1 : sv_remove_prefix (x :: e) 1 = Ok e).
        { change 1 with (sv_size [x]). change (x :: e) with ([x] ++ e). apply remove_app. }
        destruct (Z.eqb_spec x 45) as [->|N1]; cbn [orb].
        { rewrite R1. cbn [bind]. destruct (negb _); reflexivity. }
        destruct (Z.eqb_spec x 43) as [->|N2].
        { rewrite R1. cbn [bind]. destruct (negb _); reflexivity. }
        cbn [bind]. destruct (negb _); reflexivity.
      * rewrite (npos_not_last rest NR SR), Z.eqb_refl, andb_true_r.
        rewrite take_all by (unfold small, npos in *; lia).
        destruct hex; [reflexivity|]. rewrite ER, andb_false_r. cbn [orb].
        destruct (negb _); reflexivity.
  - rewrite take_all by (unfold small, npos in *; lia).
    destruct (sv_empty body) eqn:EB; [destruct body; [congruence|discriminate]|]. cbn [orb].
    rewrite (npos_not_last body E3 SB), Z.eqb_refl. cbn [negb bind andb].
    destruct (is_valid_digit_sequence body (if hex then 16 else 10)) eqn:V; [|reflexivity]. cbn [negb].
    apply valid_digits_iff in V; auto.
    pose proof (exponent_pos_eq hex body SB) as X. cbv zeta in X. rewrite X. clear X.
    rewrite split_exponent_none by now apply digit_seq_chars.
    now rewrite (npos_not_last body E3 SB), Z.eqb_refl.
Qed.

(** ** The grammar *)

Lemma strip_cases : forall s hex body, strip_prefix s = (hex, body) ->
  (hex = false /\ body = s) \/ (hex = true /\ (s = 48 :: 120 :: body \/ s = 48 :: 88 :: body)).
Proof.
  intros s hex body H.
  destruct s as [|a [|b [|c s]]].
  - inversion H; auto.
  - cbn in H. left. destruct a as [|p|p]; try (inversion H; auto; fail).
    repeat (destruct p as [p|p|]; try (inversion H; auto; fail)).
  - cbn in H. left. destruct a as [|p|p]; try (inversion H; auto; fail).
    repeat (destruct p as [p|p|]; try (inversion H; auto; fail)).
  - assert (E : strip_prefix (a :: b :: c :: s) =
      if (a =? 48) && ((b =? 120) || (b =? 88)) then (true, c :: s) else (false, a :: b :: c :: s)).
    { destruct (Z.eqb_spec a 48) as [->|N]; [reflexivity|]. cbn [andb].
      unfold strip_prefix. destruct a as [|p|p]; auto. repeat (destruct p as [p|p|]; auto). now elim N. }
    rewrite E in H. destruct (Z.eqb_spec a 48) as [->|N]; cbn [andb] in H; [|inversion H; auto].
    destruct (Z.eqb_spec b 120) as [->|N]; cbn [orb] in H; [inversion H; auto|].
    destruct (Z.eqb_spec b 88) as [->|N']; inversion H; auto.
Qed.

Lemma empty_or_valid_iff : forall base s, base_ok base ->
  empty_or_valid base s = true <-> empty_or (digit_seq base) s.
Proof.
  intros base s B. unfold empty_or_valid, empty_or. rewrite orb_true_iff, valid_digits_iff by auto.
  destruct s; cbn [sv_empty]; intuition congruence.
Qed.

Lemma split_exponent_some : forall hex s f e, split_exponent hex s = Some (f, e) ->
  exists c, s = f ++ c :: e /\ (if hex : bool then c = 112 \/ c = 80 else c = 101 \/ c = 69).
Proof.
  intros hex s f e H. unfold split_exponent in H. destruct (split_at _ s) as [[a b]|] eqn:E.
  - inversion H; subst. apply split_at_some in E as [-> _]. exists (if hex then 112 else 101). destruct hex; auto.
  - apply split_at_some in H as [-> _]. exists (if hex then 80 else 69). destruct hex; auto.
Qed.

Definition prefix_of (hex : bool) (x : Z) : list Z := if hex then [48; x] else [].

Theorem scan_sound : forall s r, scan_fun s = Some r ->
  exists l, valid_literal l /\ s = spell l /\ parts_of r l /\
    (sc_precision r = count_digits (l_fraction l)).
Proof.
  intros s r H. unfold scan_fun in H. destruct (strip_prefix s) as [hex body] eqn:SP.
  assert (P : exists x, s = prefix_of hex x ++ body /\ (x = 120 \/ x = 88)).
  { apply strip_cases in SP as [[-> ->]|[-> [->| ->]]]; [exists 120|exists 120|exists 88]; cbn; auto. }
  clear SP. destruct P as [x [-> Hx]].
  set (base := if hex then 16 else 10) in *.
  assert (B : base_ok base) by (unfold base, base_ok; destruct hex; auto).
  destruct (split_at 46 body) as [[w rest]|] eqn:SD; [|discriminate].
  apply split_at_some in SD as [-> NI].
  destruct (empty_or_valid base w) eqn:VW; [|discriminate]. cbn [negb] in H.
  apply empty_or_valid_iff in VW; auto.
  assert (HB : forall l, l_prefix l = prefix_of hex x -> is_hex l = hex /\ l_base l = base).
  { intros l E. unfold l_base, is_hex. rewrite E. unfold base. destruct hex; split; reflexivity. }
  assert (HP : prefix_of hex x = [] \/ prefix_of hex x = [48; 120] \/ prefix_of hex x = [48; 88]).
  { destruct hex; cbn; [|auto]. destruct Hx as [-> | ->]; auto. }
  destruct (sv_empty rest) eqn:ER.
  - destruct hex; [discriminate|]. cbn [orb] in H. destruct (sv_empty w) eqn:EW; [discriminate|].
    inversion H; subst r; clear H. destruct rest; [|discriminate].
    exists (mkLit [] w [] None). unfold valid_literal, spell, parts_of. cbn.
    repeat split; auto; try (now left). left. intros ->. discriminate.
  - assert (NR : rest <> []) by (intros ->; discriminate).
    destruct (split_exponent hex rest) as [[f e]|] eqn:SE.
    + apply split_exponent_some in SE as [c [-> Hc]].
      destruct (sv_empty w && sv_empty f) eqn:WF; [discriminate|].
      destruct (empty_or_valid base f) eqn:VF; [|discriminate]. cbn [negb] in H.
      apply empty_or_valid_iff in VF; auto.
      destruct e as [|y e]; [discriminate|].
      assert (NE : w <> [] \/ f <> []).
      { destruct w; [right; intros ->; discriminate|left; discriminate]. }
      assert (G : forall sg ds neg, y :: e = (match sg with Some c => [c] | None => [] end) ++ ds ->
        (sg = None \/ sg = Some 43 \/ sg = Some 45) -> (neg = true <-> sg = Some 45) ->
        (if negb (is_valid_digit_sequence ds 10) then None
         else Some (mkScan base w f (count_digits f) neg ds)) = Some r ->
        exists l, valid_literal l /\
          prefix_of hex x ++ w ++ 46 :: f ++ c :: y :: e = spell l /\ parts_of r l /\
          sc_precision r = count_digits (l_fraction l)).
      { intros sg ds neg EQ SG NG K.
        destruct (is_valid_digit_sequence ds 10) eqn:VD; [|discriminate]. cbn [negb] in K.
        apply valid_digits_iff in VD; [|now left]. inversion K; subst r; clear K.
        exists (mkLit (prefix_of hex x) w f (Some (mkExp c sg ds))).
        destruct (HB (mkLit (prefix_of hex x) w f (Some (mkExp c sg ds))) eq_refl) as [H1 H2].
        split; [|split; [|split]].
        - unfold valid_literal. rewrite H1, H2. cbn [l_prefix l_whole l_fraction l_exponent].
          repeat split; auto. 
        - unfold spell. cbn [l_prefix l_whole l_fraction l_exponent spell_exponent x_letter x_sign x_digits].
          rewrite EQ. reflexivity.
        - unfold parts_of. rewrite H2. cbn [l_prefix l_whole l_fraction l_exponent sc_base sc_whole sc_fractional sc_exponent sc_negative x_digits x_sign].
          repeat split; auto; tauto.
        - reflexivity. }
      destruct (Z.eqb_spec y 45) as [->|N1].
      { apply (G (Some 45) e true); auto; tauto. }
      destruct (Z.eqb_spec y 43) as [->|N2].
      { apply (G (Some 43) e false); auto. split; [discriminate|intros K; inversion K]. }
      { apply (G None (y :: e) false); auto. split; [discriminate|intros K; inversion K]. }
    + destruct hex; [discriminate|].
      destruct (is_valid_digit_sequence rest base) eqn:VR; [|discriminate]. cbn [negb] in H.
      apply valid_digits_iff in VR; auto. inversion H; subst r; clear H.
      exists (mkLit [] w rest None). unfold valid_literal, spell, parts_of. cbn.
      rewrite app_nil_r. repeat split; auto. now right.
Qed.

(** Completeness *)

Lemma not_in_seq : forall base s c, base_ok base -> empty_or (digit_seq base) s ->
  c <> 39 -> ~ is_digit base c -> ~ In c s.
Proof. intros base s c B H N D. apply (digit_chars_not_in base); auto. now apply empty_or_chars. Qed.

Lemma second_char : forall base w c, base_ok base -> empty_or (digit_seq base) w ->
  forall a b s, w ++ 46 :: c = a :: b :: s -> a = 48 -> b <> 120 /\ b <> 88.
Proof.
  intros base w c B H a b s E ->. apply empty_or_chars in H.
  destruct w as [|x [|y w]]; cbn in E.
  - inversion E.
  - inversion E; subst. split; lia.
  - inversion E; subst. inversion H; subst. inversion H3; subst.
    destruct H4 as [->|D]; [split; lia|]. apply is_digit_cases in D; auto. unfold base_ok in B. lia.
Qed.

Theorem scan_complete : forall l, valid_literal l ->
  exists r, scan_fun (spell l) = Some r /\ parts_of r l /\ sc_precision r = count_digits (l_fraction l).
Proof.
  intros [px w f ex] [HP [HW [HF [HN HE]]]]. cbn [l_prefix l_whole l_fraction l_exponent] in *.
  set (L := mkLit px w f ex) in *. set (hex := is_hex L) in *.
  assert (HB : l_base L = if hex then 16 else 10) by reflexivity. rewrite HB in *.
  assert (B : base_ok (if hex then 16 else 10)) by (unfold base_ok; destruct hex; auto).
  set (rest := f ++ spell_exponent ex).
  assert (SP : strip_prefix (spell L) = (hex, w ++ 46 :: rest)).
  { unfold spell, L. cbn [l_prefix l_whole l_fraction l_exponent]. fold rest.
    assert (NE : exists a b s, w ++ 46 :: rest = a :: b :: s).
    { destruct w as [|x [|y w]]; cbn; eauto.
      destruct HN as [HN|HN]; [congruence|]. unfold rest. destruct f; [congruence|]. cbn. eauto. }
    destruct NE as [a [b [s E]]].
    destruct HP as [->|[->| ->]]; cbn [app].
    - cbn in hex. destruct (strip_prefix (w ++ 46 :: rest)) as [h' b'] eqn:S.
      pose proof (second_char _ _ _ B HW a b s E) as SC. rewrite E in S.
      apply strip_cases in S as [[-> ->]|[-> [S|S]]]; [rewrite E; reflexivity| |]; inversion S; subst; exfalso; tauto.
    - rewrite E. reflexivity.
    - rewrite E. reflexivity. }
  unfold scan_fun. rewrite SP.
  assert (N46 : ~ In 46 w).
  { apply (not_in_seq (if hex then 16 else 10)); auto; [lia|]. rewrite is_digit_cases by auto. destruct hex; lia. }
  rewrite (proj2 (split_at_some 46 _ w rest) (conj eq_refl N46)).
  rewrite (proj2 (empty_or_valid_iff _ w B) HW). cbn [negb].
  destruct (exponent_letter_not_digit hex) as [NL NU].
  assert (NLf : ~ In (if hex then 112 else 101) f).
  { apply (not_in_seq (if hex then 16 else 10)); auto. destruct hex; lia. }
  assert (NUf : ~ In (if hex then 80 else 69) f).
  { apply (not_in_seq (if hex then 16 else 10)); auto. destruct hex; lia. }
  assert (EW : (if sv_empty w && sv_empty f then true else false) = false).
  { destruct w; [|reflexivity]. destruct f; [|reflexivity]. destruct HN; congruence. }
  destruct ex as [e|].
  - destruct HE as [HL [HS HD]].
    assert (RE : rest = f ++ x_letter e :: (match x_sign e with Some c => [c] | None => [] end) ++ x_digits e) by reflexivity.
    assert (ER : sv_empty rest = false) by (rewrite RE; destruct f; reflexivity).
    rewrite ER.
    assert (T : ~ In (if hex then 112 else 101) ((match x_sign e with Some c => [c] | None => [] end) ++ x_digits e)).
    { intros K. apply in_app_or in K as [K|K].
      - destruct HS as [S|[S|S]]; rewrite S in K; cbn in K; destruct hex; lia.
      - revert K. apply (not_in_seq 10); [now left|now right|destruct hex; lia|].
        rewrite is_digit_cases by now left. destruct hex; lia. }
    assert (SE : split_exponent hex rest = Some (f, (match x_sign e with Some c => [c] | None => [] end) ++ x_digits e)).
    { unfold split_exponent. rewrite RE.
      assert (C : x_letter e = (if hex then 112 else 101) \/ x_letter e = (if hex then 80 else 69)) by (destruct hex; tauto).
      destruct C as [->| ->].
      - rewrite (proj2 (split_at_some _ _ f _) (conj eq_refl NLf)). reflexivity.
      - rewrite (proj2 (split_at_none _ _)).
        + apply split_at_some. auto.
        + intros K. apply in_app_or in K as [K|[K|K]]; [auto|destruct hex; lia|auto]. }
    rewrite SE.
    destruct (sv_empty w && sv_empty f); [discriminate|].
    rewrite (proj2 (empty_or_valid_iff _ f B) HF). cbn [negb].
    pose proof (proj2 (valid_digits_iff 10 _ ltac:(now left)) HD) as VD.
    destruct HS as [S|[S|S]]; rewrite S; cbn [app].
    + assert (NX : exists y d, x_digits e = y :: d /\ y <> 45 /\ y <> 43).
      { inversion HD as [c D|c s' D D2|c s' D D2]; apply is_digit_cases in D; try (now left);
          exists c; eexists; (split; [reflexivity|lia]). }
      destruct NX as [y [d [E [N1 N2]]]]. rewrite E in *.
      rewrite (proj2 (Z.eqb_neq y 45) N1), (proj2 (Z.eqb_neq y 43) N2), VD. cbn [negb].
      eexists; split; [reflexivity|]. split; [|reflexivity].
      unfold parts_of, L. fold L. rewrite HB. cbn. rewrite S, E. repeat split; auto; discriminate.
    + cbn [Z.eqb Pos.eqb]. rewrite VD. cbn [negb].
      eexists; split; [reflexivity|]. split; [|reflexivity].
      unfold parts_of, L. fold L. rewrite HB. cbn. rewrite S. repeat split; auto; discriminate.
    + cbn [Z.eqb Pos.eqb]. rewrite VD. cbn [negb].
      eexists; split; [reflexivity|]. split; [|reflexivity].
      unfold parts_of, L. fold L. rewrite HB. cbn. rewrite S. repeat split; auto.
  - fold hex in HE. rewrite HE in *. unfold rest in *. cbn [spell_exponent] in *. rewrite app_nil_r in *.
    destruct f as [|y f].
    + cbn [sv_empty orb]. destruct w as [|z w]; [destruct HN; congruence|]. cbn [sv_empty].
      eexists; split; [reflexivity|]. split; [|reflexivity].
      unfold parts_of, L. fold L. rewrite HB. cbn. auto.
    + cbn [sv_empty].
      rewrite (split_exponent_none false) by now apply empty_or_chars.
      destruct HF as [HF|HF]; [discriminate|].
      rewrite (proj2 (valid_digits_iff 10 _ ltac:(now left)) HF). cbn [negb].
      eexists; split; [reflexivity|]. split; [|reflexivity].
      unfold parts_of, L. fold L. rewrite HB. cbn. auto.
Qed.
