(** Proofs for C115. *)

From Coq Require Import ZArith List Bool Lia.
From Verif Require Import Machine Raw Stream Stream_spec Locale Locale_spec.
From Verif Require Import Machine_proofs Stream_proofs.
Import ListNotations.
Open Scope Z_scope.

Lemma group_size_spec : forall g i, group_size g i = if (0 <? size_of g i) && (size_of g i <? 127) then Some (size_of g i) else None.
Proof.
  intros g i. unfold group_size. assert (E : nth (Nat.min i (length g - 1)) g 0 = size_of g i); [|now rewrite E].
  unfold size_of. destruct (Nat.ltb_spec i (length g)).
  - now rewrite Nat.min_l by lia.
  - rewrite Nat.min_r by lia. destruct g as [|a g]; [reflexivity|]. clear H i. cbn [length]. rewrite Nat.sub_succ, Nat.sub_0_r.
    revert a. induction g as [|b g IH]; intros a; [reflexivity|]. change (nth (length g) (b :: g) 0 = last (b :: g) 0). apply IH.
Qed.

Lemma group_size_some : forall g i n, group_size g i = Some n <-> limited (size_of g i) /\ n = size_of g i.
Proof.
  intros g i n. rewrite group_size_spec. unfold limited. destruct (Z.ltb_spec 0 (size_of g i)), (Z.ltb_spec (size_of g i) 127); cbn [andb];
    split; intros H1; try discriminate; try (injection H1 as <-; split; lia); destruct H1 as [X ->]; auto; lia.
Qed.
Lemma group_size_none : forall g i, group_size g i = None <-> ~ limited (size_of g i).
Proof.
  intros g i. rewrite group_size_spec. unfold limited. destruct (Z.ltb_spec 0 (size_of g i)), (Z.ltb_spec (size_of g i) 127); cbn [andb];
    split; intros H1; try discriminate; auto; lia.
Qed.

(** Writing *)
Lemma put_groups_grouped : forall p rds i left cur, cur <> [] \/ rds <> [] -> Forall decimal cur -> Forall decimal rds ->
  left = option_map (fun n => n - Z.of_nat (length cur)) (group_size (grouping p) i) ->
  (limited (size_of (grouping p) i) -> Z.of_nat (length cur) <= size_of (grouping p) i) ->
  grouped p i (rev rds ++ cur) (rev (put_groups p i left rds) ++ cur).
Proof.
  intros p. induction rds as [|c r IH]; intros i left cur NE DC DR L FIT; cbn [put_groups rev app].
  - apply leading_group; auto. destruct NE; [auto|contradiction].
  - inversion DR as [|? ? DC0 DR0]; subst. destruct (group_size (grouping p) i) as [n|] eqn:G; cbn [option_map].
    + apply group_size_some in G as G'. destruct G' as [LIM ->]. specialize (FIT LIM).
      destruct (Z.eqb_spec (size_of (grouping p) i - Z.of_nat (length cur)) 0) as [E|E].
      * cbn [rev]. rewrite <- !app_assoc. rewrite !app_assoc. rewrite <- (app_assoc _ [separator p] cur).
        apply next_group; auto; [lia|]. apply IH; [left; discriminate|now constructor|auto| |].
        { destruct (group_size (grouping p) (S i)); reflexivity. }
        { cbn; unfold limited; lia. }
      * cbn [rev]. rewrite <- !app_assoc. cbn [app]. apply IH; [left; discriminate|now constructor|auto| |].
        { rewrite G. cbn [option_map length]. f_equal. lia. }
        { cbn [length]. lia. }
    + cbn [rev]. rewrite <- !app_assoc. cbn [app]. apply IH; [left; discriminate|now constructor|auto|now rewrite G|].
      intros X. apply group_size_none in G. contradiction.
Qed.

Lemma put_int_grouped : forall p z, exists ds text,
  l_put_int p z = (if z <? 0 then [45] else []) ++ text /\ put_int z = (if z <? 0 then [45] else []) ++ ds /\
  grouped p 0 ds text /\ ds <> [] /\ Forall decimal ds /\ decimal_value ds = Z.abs z /\ (length ds = 1%nat \/ hd 0 ds <> 48).
Proof.
  intros p z. destruct (put_digits_abs z) as [ds [A [B [C [D E]]]]]. exists ds. unfold l_put_int, put_int. rewrite A. eexists.
  split; [destruct (z <? 0); reflexivity|]. split; [now destruct (z <? 0)|]. split; [|auto].
  pose proof (put_groups_grouped p (rev ds) 0 (group_size (grouping p) 0) []) as G. rewrite rev_involutive, !app_nil_r in G.
  apply G; auto.
  - right. intros X. apply B. rewrite <- (rev_involutive ds), X. reflexivity.
  - now apply Forall_rev.
  - destruct (group_size (grouping p) 0); cbn; auto. now rewrite Z.sub_0_r.
  - cbn. unfold limited. lia.
Qed.

(** Reading *)
Definition strip (p : punct) (s : list Z) : list Z := filter (fun c => negb (is_separator p c)) s.

Lemma sep_iff : forall p c, is_separator p c = true <-> grouping p <> [] /\ c = separator p.
Proof.
  intros p c. unfold is_separator. destruct (grouping p); [split; [discriminate|intros [H _]; contradiction]|].
  rewrite Z.eqb_eq. split; [intros ->; split; [discriminate|reflexivity]|intros [_ H]; exact H].
Qed.

Lemma sep_not_dec : forall p c, usable p -> decimal c -> is_separator p c = false.
Proof.
  intros p c U D. destruct (is_separator p c) eqn:E; auto. apply sep_iff in E as [_ ->]. now destruct (proj1 U).
Qed.

Lemma strip_digits : forall p ds, usable p -> Forall decimal ds -> strip p ds = ds.
Proof.
  intros p ds U D. induction D as [|c ds Dc D IH]; [reflexivity|]. cbn. rewrite (sep_not_dec p c U Dc). cbn [negb]. now rewrite <- IH at 2.
Qed.
Lemma strip_app : forall p a b, strip p (a ++ b) = strip p a ++ strip p b.
Proof. intros. apply filter_app. Qed.

Lemma limited_groups : forall p i, limited (size_of (grouping p) i) -> grouping p <> [].
Proof. intros p i L E. rewrite E in L. unfold size_of in L. destruct i; cbn in L; unfold limited in L; lia. Qed.

Lemma grouped_strip : forall p i ds text, usable p -> grouped p i ds text ->
  strip p text = ds /\ Forall decimal ds /\ ds <> [] /\ Forall (fun c => is_separator p c || is_dec c = true) text.
Proof.
  intros p i ds text U G. induction G as [i ds NE D L|i ds text d LIM LEN D G IH].
  - split; [now apply strip_digits|]. split; auto. split; auto. apply Forall_impl with (2 := D). intros c H. apply is_dec_iff in H. now rewrite H, orb_true_r.
  - destruct IH as [A [B [C E]]]. assert (S : is_separator p (separator p) = true) by (apply sep_iff; split; auto; now apply (limited_groups p i)).
    split; [|split; [|split]].
    + rewrite !strip_app, A. rewrite (strip_digits p d) by auto. cbn. now rewrite S.
    + apply Forall_app. auto.
    + destruct ds; [contradiction|discriminate].
    + apply Forall_app. split; auto. constructor; [now rewrite S|].
      apply Forall_impl with (2 := D). intros c H. apply is_dec_iff in H. now rewrite H, orb_true_r.
Qed.

Lemma lengths_nonempty : forall p rt n, group_lengths p n rt <> [].
Proof. intros p rt. induction rt as [|c r IH]; intros n; cbn; [discriminate|]. destruct (is_separator p c); [discriminate|apply IH]. Qed.

(** Cutting at the last separator is unambiguous. *)
Lemma cut_last : forall (x : Z) a b c d, ~ In x b -> ~ In x d -> a ++ x :: b = c ++ x :: d -> a = c /\ b = d.
Proof.
  intros x a b c d NB ND E. apply (f_equal (@rev Z)) in E. rewrite !rev_app_distr in E. cbn [rev] in E. rewrite <- !app_assoc in E. cbn [app] in E.
  assert (X : rev b = rev d /\ rev a = rev c).
  { assert (NB' : ~ In x (rev b)) by (now rewrite <- in_rev). assert (ND' : ~ In x (rev d)) by (now rewrite <- in_rev).
    clear NB ND. revert E NB' ND'. generalize (rev b), (rev d). intros l. induction l as [|y l IH]; intros [|z l'] E NB' ND'; cbn [app] in E.
    - injection E as E. auto.
    - injection E as E1 E2. exfalso. apply ND'. now left.
    - injection E as E1 E2. exfalso. apply NB'. now left.
    - injection E as E1 E2. subst z. destruct (IH l' E2) as [-> ->]; auto; intros H; [apply NB'|apply ND']; now right. }
  destruct X as [X1 X2]. split; [rewrite <- (rev_involutive a), X2|rewrite <- (rev_involutive b), X1]; apply rev_involutive.
Qed.

Lemma consistent_grouped : forall p rt i cur, usable p -> Forall decimal cur ->
  Forall (fun c => is_separator p c || is_dec c = true) rt ->
  consistent (grouping p) i (group_lengths p (Z.of_nat (length cur)) rt) = true <->
  grouped p i (strip p (rev rt) ++ cur) (rev rt ++ cur).
Proof.
  intros p rt. induction rt as [|c r IH]; intros i cur U DC DR; cbn [rev app group_lengths].
  - cbn [strip filter app consistent]. split.
    + intros H. apply andb_true_iff in H as [H1 H2]. apply Z.ltb_lt in H1. apply leading_group; auto; [intros ->; cbn in H1; lia|].
      intros L. destruct (group_size (grouping p) i) as [n|] eqn:G.
      * apply group_size_some in G as [_ ->]. now apply Z.leb_le.
      * apply group_size_none in G. contradiction.
    + intros H. apply andb_true_iff. remember cur as tt eqn:ET in H at 2. destruct H as [i ds NE D L|i ds text d LIM LEN D G].
      * split; [destruct ds; [contradiction|reflexivity]|]. destruct (group_size (grouping p) i) as [n|] eqn:E; auto.
        apply group_size_some in E as [LIM ->]. apply Z.leb_le. auto.
      * exfalso. assert (I : In (separator p) (ds ++ d)) by (rewrite <- ET; apply in_or_app; right; now left).
        rewrite Forall_forall in DC. apply DC in I. now apply (proj1 U).
  - inversion DR as [|? ? DC0 DR0]; subst. destruct (is_separator p c) eqn:S.
    + assert (S' := S). apply sep_iff in S' as [GN ->]. rewrite strip_app. cbn [strip filter]. rewrite S. cbn [negb app]. rewrite app_nil_r.
      assert (NS : forall l, Forall decimal l -> ~ In (separator p) l).
      { intros l F I. rewrite Forall_forall in F. apply F in I. now apply (proj1 U). }
      assert (Q : consistent (grouping p) i (Z.of_nat (length cur) :: group_lengths p 0 r) =
        match group_size (grouping p) i with Some n => (Z.of_nat (length cur) =? n) && consistent (grouping p) (Datatypes.S i) (group_lengths p 0 r) | None => false end).
      { cbn [consistent]. pose proof (lengths_nonempty p r 0). destruct (group_lengths p 0 r); [contradiction|reflexivity]. }
      rewrite Q. clear Q. specialize (IH (Datatypes.S i) [] U (Forall_nil _) DR0). cbn [length Z.of_nat] in IH. rewrite !app_nil_r in IH.
      rewrite <- app_assoc. split.
      * intros H. destruct (group_size (grouping p) i) as [n|] eqn:G; [|discriminate]. apply group_size_some in G as [LIM ->].
        apply andb_true_iff in H as [H1 H2]. apply Z.eqb_eq in H1. apply next_group; auto. now apply IH.
      * intros H. remember (strip p (rev r) ++ cur) as dd eqn:ED. remember (rev r ++ [separator p] ++ cur) as tt eqn:ET.
        destruct H as [i ds NE D L|i ds text d LIM LEN D G].
        -- exfalso. apply (NS ds D). rewrite ET. apply in_or_app. right. now left.
        -- cbn [app] in ET. apply cut_last in ET as [-> ->]; auto. apply app_inv_tail in ED. subst ds.

           rewrite (proj2 (group_size_some (grouping p) i (size_of (grouping p) i)) (conj LIM eq_refl)).
           apply andb_true_iff. split; [now apply Z.eqb_eq|]. now apply IH.
    + cbn [orb] in DC0. assert (DC1 := DC0). apply is_dec_iff in DC1. rewrite strip_app. cbn [strip filter]. rewrite S. cbn [negb]. rewrite <- !app_assoc. cbn [app].
      rewrite <- IH by auto. cbn [length]. now rewrite Nat2Z.inj_succ, <- Z.add_1_r.
Qed.

Definition run_char (p : punct) (c : Z) : Prop := is_separator p c || is_dec c = true.

Lemma stops_first : forall p c r, stops p (c :: r) <-> is_separator p c || is_dec c = false.
Proof.
  intros p c r. cbn. rewrite orb_false_iff. split.
  - intros [D S]. split.
    + destruct (is_separator p c) eqn:E; auto. apply sep_iff in E as [G ->]. now destruct (S G).
    + destruct (is_dec c) eqn:E; auto. apply is_dec_iff in E. contradiction.
  - intros [S D]. split; [intros X; apply is_dec_iff in X; congruence|]. intros G ->.
    assert (is_separator p (separator p) = true) by (now apply sep_iff). congruence.
Qed.

Lemma span_run_app : forall p text r, Forall (run_char p) text -> stops p r -> span_run p (text ++ r) = (text, r).
Proof.
  intros p text r F S. induction F as [|c text C F IH]; cbn [app].
  - destruct r as [|c r]; [reflexivity|]. apply stops_first in S. cbn. now rewrite S.
  - cbn. unfold run_char in C. now rewrite C, IH.
Qed.
Lemma span_run_inv : forall p s a r, span_run p s = (a, r) -> s = a ++ r /\ Forall (run_char p) a /\ stops p r.
Proof.
  intros p s. induction s as [|c s IH]; intros a r H; cbn in H.
  - injection H as <- <-. repeat split; auto.
  - destruct (is_separator p c || is_dec c) eqn:E.
    + destruct (span_run p s) as [a' r'] eqn:S. injection H as <- <-. destruct (IH a' r' eq_refl) as [A [B C]].
      rewrite A. repeat split; auto.
    + injection H as <- <-. split; [reflexivity|]. split; auto. now apply stops_first.
Qed.

Lemma lengths_single : forall p rt n, Forall (fun c => is_separator p c = false) rt -> exists m, group_lengths p n rt = [m].
Proof.
  intros p rt n F. revert n. induction F as [|c r C F IH]; intros n; cbn; [eauto|]. rewrite C. apply IH.
Qed.
Lemma lengths_many : forall p rt n, (exists m, group_lengths p n rt = [m]) -> Forall (fun c => is_separator p c = false) rt.
Proof.
  intros p rt. induction rt as [|c r IH]; intros n [m H]; constructor; cbn in H; destruct (is_separator p c) eqn:S; auto.
  - exfalso. injection H as _ H. now apply (lengths_nonempty p r 0).
  - exfalso. injection H as _ H. now apply (lengths_nonempty p r 0).
  - apply (IH (n + 1)). eauto.
Qed.
Lemma strip_self : forall p s, strip p s = s <-> Forall (fun c => is_separator p c = false) s.
Proof.
  intros p s. induction s as [|c s IH]; cbn; [split; auto|]. destruct (is_separator p c) eqn:E; cbn [negb].
  - split; [|intros H; inversion H; congruence]. intros H. exfalso.
    assert (L : (length (strip p s) <= length s)%nat) by (clear; unfold strip; induction s as [|a s IH]; cbn; auto; destruct (is_separator p a); cbn in *; lia).
    unfold strip in L. rewrite H in L. cbn in L. lia.
  - split; intros H.
    + constructor; auto. apply IH. now injection H.
    + inversion H; subst. f_equal. now apply IH.
Qed.

Lemma check_iff : forall p run, usable p -> Forall (run_char p) run -> strip p run <> [] ->
  (check_groups p run = true <-> strip p run = run \/ grouped p 0 (strip p run) run).
Proof.
  intros p run U F NE. unfold check_groups.
  pose proof (consistent_grouped p (rev run) 0 [] U (Forall_nil _) (Forall_rev F)) as C. rewrite rev_involutive, !app_nil_r in C. cbn [length Z.of_nat] in C.
  destruct (group_lengths p 0 (rev run)) as [|n [|m l]] eqn:E.
  - exfalso. now apply (lengths_nonempty p (rev run) 0).
  - split; auto. intros _. left. apply strip_self. rewrite <- (rev_involutive run). apply Forall_rev. apply (lengths_many p _ 0). eauto.
  - rewrite C. split; auto. intros [H|H]; auto. exfalso. apply strip_self in H. apply Forall_rev in H.
    destruct (lengths_single p (rev run) 0 H) as [k K]. congruence.
Qed.

Definition value_of (t : rep) (neg : bool) (m z : Z) : Prop :=
  if rsigned t then z = (if neg then - m else m) /\ rmin t <= z <= rmax t
  else m <= rmax t /\ z = (if neg then - m else m) mod 2 ^ rbits t.

(** Reading what follows the sign. *)
Definition get_rest (p : punct) (t : rep) (neg : bool) (r1 : list Z) : istream * Z :=
  let '(run, r2) := span_run p r1 in
  let eof := match r2 with [] => true | _ => false end in
  let bad := negb (check_groups p run) in
  match filter (fun c => negb (is_separator p c)) run with
  | [] => (mkIn r2 true eof, 0)
  | ds =>
      let m := digits_int ds in
      if rsigned t then
        let z := if neg then - m else m in
        if in_rep t z then (mkIn r2 bad eof, z)
        else (mkIn r2 true eof, if neg then rmin t else rmax t)
      else if m <=? rmax t then (mkIn r2 bad eof, cast t (if neg then - m else m))
      else (mkIn r2 true eof, rmax t)
  end.

Lemma get_rest_ok : forall p t neg ds text r z, usable p -> ds <> [] -> Forall decimal ds -> text = ds \/ grouped p 0 ds text ->
  value_of t neg (decimal_value ds) z -> stops p r -> get_rest p t neg (text ++ r) = (mkIn r false (at_end r), z).
Proof.
  intros p t neg ds text r z U NE D T V S.
  assert (ST : strip p text = ds /\ Forall (run_char p) text).
  { destruct T as [->|T]; [|now apply grouped_strip in T as [A [B [C E]]]]. split; [now apply strip_digits|].
    apply Forall_impl with (2 := D). intros c H. unfold run_char. apply is_dec_iff in H. now rewrite H, orb_true_r. }
  destruct ST as [ST RC]. unfold get_rest. rewrite span_run_app by auto. cbn zeta. fold (strip p text). rewrite ST.
  assert (CG : check_groups p text = true). { apply check_iff; auto; rewrite ST; auto. destruct T; auto. }
  rewrite CG. destruct ds as [|c ds]; [contradiction|]. rewrite digits_int_value. cbn [negb]. unfold value_of in V.
  destruct (rsigned t) eqn:SG.
  - destruct V as [V1 V2]. rewrite <- V1. replace (in_rep t z) with true; [reflexivity|]. symmetry. apply in_rep_iff. lia.
  - destruct V as [V1 V2]. destruct (Z.leb_spec (decimal_value (c :: ds)) (rmax t)); [|lia]. unfold cast, wrap. rewrite SG, V2. reflexivity.
Qed.

Lemma get_rest_inv : forall p t neg r1 s' z, usable p -> get_rest p t neg r1 = (s', z) -> failbit s' = false ->
  exists ds text, r1 = text ++ unread s' /\ ds <> [] /\ Forall decimal ds /\ (text = ds \/ grouped p 0 ds text) /\
    value_of t neg (decimal_value ds) z /\ stops p (unread s') /\ eofbit s' = at_end (unread s').
Proof.
  intros p t neg r1 s' z U H F. unfold get_rest in H. destruct (span_run p r1) as [run r2] eqn:SP. cbn zeta in H.
  apply span_run_inv in SP as [A [B C]]. fold (strip p run) in H.
  assert (DS : Forall decimal (strip p run)).
  { clear -B. induction B as [|c l R B IH]; cbn; [constructor|]. unfold run_char in R. destruct (is_separator p c); cbn in *; auto. constructor; auto. now apply is_dec_iff. }
  destruct (strip p run) as [|c ds] eqn:ST; [injection H as <- <-; discriminate|]. rewrite digits_int_value in H.
  assert (NE : strip p run <> []) by (rewrite ST; discriminate).
  pose proof (check_iff p run U B NE) as CK. rewrite ST in CK.
  exists (c :: ds), run. unfold value_of. destruct (rsigned t) eqn:SG.
  - destruct (in_rep t (if neg then - decimal_value (c :: ds) else decimal_value (c :: ds))) eqn:I; injection H as <- <-; [|discriminate].
    cbn [failbit unread eofbit] in *. apply negb_false_iff in F. apply CK in F. apply in_rep_iff in I.
    split; auto. split; [discriminate|]. split; auto. split; [destruct F; auto|]. split; [split; [reflexivity|exact I]|]. split; auto.
  - destruct (Z.leb_spec (decimal_value (c :: ds)) (rmax t)); injection H as <- <-; [|discriminate].
    cbn [failbit unread eofbit] in *. apply negb_false_iff in F. apply CK in F.
    split; auto. split; [discriminate|]. split; auto. split; [destruct F; auto|]. split; [|split; auto]. split; auto. unfold cast, wrap. now rewrite SG.
Qed.

Lemma first_not_sign : forall p ds text, usable p -> Forall decimal ds -> ds <> [] -> text = ds \/ grouped p 0 ds text ->
  exists c text', text = c :: text' /\ decimal c.
Proof.
  intros p ds text U D NE [->|G].
  - destruct ds as [|c ds]; [contradiction|]. inversion D; subst. eauto.
  - clear D NE. induction G as [i ds NE D L|i ds text d LIM LEN D G [c [text' [-> C]]]].
    + destruct ds as [|c ds]; [contradiction|]. inversion D; subst. eauto.
    + exists c, (text' ++ [separator p] ++ d). auto.
Qed.

Lemma l_get_number_ok : forall p t s z r, usable p -> reads_as_in p t s z -> stops p r ->
  l_get_number p t (s ++ r) = (mkIn r false (at_end r), z).
Proof.
  intros p t s z r U [neg [m [[sign [ds [text [-> [SG [NE [D [-> T]]]]]]]] V]]] S.
  fold (value_of t neg (decimal_value ds) z) in V. pose proof (get_rest_ok p t neg ds text r z U NE D T V S) as G.
  unfold l_get_number. destruct SG as [[-> ->]|[[-> ->]|[-> ->]]]; cbn [app]; [|exact G|exact G].
  destruct (first_not_sign p ds text U D NE T) as [c [text' [-> C]]]. cbn [app] in *. unfold decimal in C.
  destruct (Z.eqb_spec c 45); [lia|]. destruct (Z.eqb_spec c 43); [lia|]. exact G.
Qed.

Lemma l_get_number_inv : forall p t s s' z, usable p -> l_get_number p t s = (s', z) -> failbit s' = false ->
  exists n, s = n ++ unread s' /\ reads_as_in p t n z /\ stops p (unread s') /\ eofbit s' = at_end (unread s').
Proof.
  intros p t s s' z U H F.
  assert (G : forall sign neg r1, s = sign ++ r1 -> sign_text sign neg -> get_rest p t neg r1 = (s', z) ->
    exists n, s = n ++ unread s' /\ reads_as_in p t n z /\ stops p (unread s') /\ eofbit s' = at_end (unread s')).
  { clear H. intros sign neg r1 E SG H. destruct (get_rest_inv p t neg r1 s' z U H F) as (ds & text & A & B & C & D & V & X & Y).
    exists (sign ++ text). subst s r1. rewrite <- app_assoc. split; auto. split; auto. exists neg, (decimal_value ds). split; [|exact V].
    exists sign, ds, text. repeat split; auto. }
  unfold l_get_number in H. destruct s as [|c s]; [apply (G [] false []); auto; now left|].
  destruct (Z.eqb_spec c 45) as [->|]; [apply (G [45] true s); auto; unfold sign_text; auto|].
  destruct (Z.eqb_spec c 43) as [->|]; [apply (G [43] false s); auto; unfold sign_text; auto|].
  apply (G [] false (c :: s)); auto. now left.
Qed.

Lemma reads_first : forall p t n z, usable p -> reads_as_in p t n z -> exists c n', n = c :: n' /\ ~ blank c.
Proof.
  intros p t n z U [neg [m [[sign [ds [text [-> [SG [NE [D [-> T]]]]]]]] _]]].
  destruct (first_not_sign p ds text U D NE T) as [c [text' [-> C]]].
  destruct SG as [[-> _]|[[-> _]|[-> _]]]; cbn [app]; do 2 eexists; (split; [reflexivity|]); unfold blank, decimal in *; lia.
Qed.

Lemma l_get_int_ok : forall p t b n z r old, usable p -> Forall blank b -> reads_as_in p t n z -> stops p r ->
  l_get_int p t (mkIn (b ++ n ++ r) false false) old = (mkIn r false (at_end r), z).
Proof.
  intros p t b n z r old U B R N. unfold l_get_int, sentry, good. cbn [failbit eofbit negb andb unread].
  destruct (reads_first p t n z U R) as [c [n' [E NB]]]. subst n.
  rewrite skip_spaces_app by (auto; cbn; auto). cbn [app unread].
  change (c :: n' ++ r) with ((c :: n') ++ r). now apply l_get_number_ok.
Qed.

Lemma l_get_int_inv : forall p t s old s' z, usable p -> l_get_int p t s old = (s', z) -> failbit s' = false ->
  failbit s = false /\ eofbit s = false /\
  exists b n, unread s = b ++ n ++ unread s' /\ Forall blank b /\ reads_as_in p t n z /\
    stops p (unread s') /\ eofbit s' = at_end (unread s').
Proof.
  intros p t [u f e] old s' z U H F. unfold l_get_int, sentry, good in H. cbn [failbit eofbit unread] in *.
  destruct f, e; cbn [negb andb] in H; try (inversion H; subst; cbn in F; discriminate).
  split; auto. split; auto. destruct (skip_spaces_inv u) as [b [A [B C]]].
  destruct (skip_spaces u) as [|c r] eqn:E; [inversion H; subst; discriminate|].
  cbn [unread] in H. apply l_get_number_inv in H as [n [D [G [K L]]]]; auto.
  exists b, n. rewrite A, D. auto.
Qed.

Lemma stops_slash : forall p r, usable p -> stops p (47 :: r).
Proof. intros p r (_ & _ & _ & S). cbn. split; [unfold decimal; lia|]. intros _ E. now apply S. Qed.
Lemma stops_app : forall p mid r, stops p (mid ++ r) <-> match mid with [] => stops p r | _ => stops p mid end.
Proof. intros p [|c mid] r; [reflexivity|]. cbn. tauto. Qed.

Theorem l_get_raw_ok : forall p t text v rest old, usable p -> fraction_text_in p t text v rest ->
  l_get_raw p t (mkIn text false false) old = (mkIn rest false (at_end rest), v).
Proof.
  intros p t text v rest old U [b1 [n [mid [b2 [d [E [B1 [RN [F [S [B2 [RD NR]]]]]]]]]]]].
  unfold l_get_raw. subst text. rewrite (l_get_int_ok p t b1 n (num v)); auto.
  2:{ apply stops_app. destruct mid; auto. now apply stops_slash. }
  cbn beta iota zeta. assert (AE : at_end (mid ++ [47] ++ b2 ++ d ++ rest) = false) by (destruct mid; reflexivity).
  rewrite AE. unfold ignore_slash, good. cbn [failbit eofbit negb andb unread app].
  rewrite after_slash_app by auto. rewrite (l_get_int_ok p t b2 d (den v)); auto. now destruct v.
Qed.

Theorem l_get_raw_inv : forall p t s old s' v, usable p -> l_get_raw p t s old = (s', v) -> failbit s' = false ->
  failbit s = false /\ eofbit s = false /\ fraction_text_in p t (unread s) v (unread s') /\ eofbit s' = at_end (unread s').
Proof.
  intros p t s old s' v U H F. unfold l_get_raw in H.
  destruct (l_get_int p t s (num old)) as [s1 n] eqn:E1.
  destruct (l_get_int p t (ignore_slash s1) (den old)) as [s3 d] eqn:E3. inversion H; subst. clear H.
  apply l_get_int_inv in E3 as [F2 [G2 [b2 [dd [A [B [C [D E]]]]]]]]; auto.
  unfold ignore_slash in *. destruct (good s1) eqn:GD; [|cbn in F2; discriminate].
  unfold good in GD. apply andb_true_iff in GD as [G1 G3]. apply negb_true_iff in G1, G3.
  destruct (after_slash (unread s1)) as [r|] eqn:AS; cbn in G2; [|discriminate]. cbn [unread] in A. subst r.
  apply after_slash_inv in AS as [mid [M1 M2]].
  apply l_get_int_inv in E1 as [F0 [G0 [b1 [nn [A1 [B1 [C1 [D1 H1]]]]]]]]; auto.
  repeat split; auto. exists b1, nn, mid, b2, dd. rewrite A1, M1. repeat split; auto.
  rewrite M1 in D1. apply stops_app in D1. destruct mid; auto. exact I.
Qed.

Lemma put_int_reads_in : forall p t z, in_rep t z = true -> reads_as_in p t (l_put_int p z) z.
Proof.
  intros p t z H. destruct (put_int_grouped p z) as (ds & text & A & B & G & NE & D & V & _).
  exists (z <? 0), (Z.abs z). split.
  - exists (if z <? 0 then [45] else []), ds, text. split; auto. split; [|split; [auto|split; [auto|split; [congruence|auto]]]].
    unfold sign_text. destruct (z <? 0); auto.
  - apply in_rep_iff in H. destruct (rsigned t) eqn:S.
    + split; [destruct (Z.ltb_spec z 0); lia|lia].
    + pose proof (rmin_unsigned t S). split; [lia|]. destruct (Z.ltb_spec z 0); [lia|]. rewrite Z.abs_eq by lia.
      symmetry. apply Z.mod_small. unfold rmax in H. rewrite S in H. lia.
Qed.

Lemma l_put_raw_text : forall p t v rest, usable p -> wf_raw t v -> stops p rest ->
  fraction_text_in p t (l_put_raw p v ++ rest) v rest.
Proof.
  intros p t v rest U [A B] N. exists [], (l_put_int p (num v)), [], [], (l_put_int p (den v)).
  unfold l_put_raw. rewrite <- !app_assoc. cbn [app]. repeat split; auto; now apply put_int_reads_in.
Qed.

(** Without grouping everything is as in the classic locale. *)
Lemma put_groups_plain : forall p i rds, put_groups p i None rds = rds.
Proof. intros p i rds. induction rds as [|c r IH]; cbn; [reflexivity|now rewrite IH]. Qed.
Lemma span_plain : forall p s, grouping p = [] -> span_run p s = span_digits s.
Proof. intros p s G. induction s as [|c s IH]; cbn; [reflexivity|]. unfold is_separator. rewrite G. cbn [orb]. now rewrite IH. Qed.
Lemma plain_put : forall p v, grouping p = [] -> l_put_raw p v = put_raw v.
Proof.
  intros p v G. assert (P : forall z, l_put_int p z = put_int z); [|unfold l_put_raw, put_raw; now rewrite !P].
  intros z. unfold l_put_int, put_int. replace (group_size (grouping p) 0) with (@None Z) by (rewrite G; reflexivity).
  now rewrite put_groups_plain, rev_involutive.
Qed.
Lemma plain_get : forall p t s old, grouping p = [] -> l_get_raw p t s old = get_raw t s old.
Proof.
  intros p t s old G. assert (SEP : forall c, is_separator p c = false) by (intros c; unfold is_separator; now rewrite G).
  assert (N : forall r, l_get_number p t r = get_number t r).
  { intros r. unfold l_get_number, get_number. destruct (match r with [] => _ | _ => _ end) as [neg r1]. rewrite span_plain by auto.
    destruct (span_digits r1) as [ds r2]. cbn zeta. fold (strip p ds).
    assert (FA : forall l, Forall (fun c => is_separator p c = false) l) by (intros l; apply Forall_forall; auto).
    rewrite (proj2 (strip_self p ds)) by auto.
    destruct (lengths_single p (rev ds) 0 (FA _)) as [m M]. unfold check_groups. rewrite M. now destruct ds. }
  assert (I : forall s z, l_get_int p t s z = get_int t s z) by (intros; unfold l_get_int, get_int; destruct (sentry _); now rewrite N).
  unfold l_get_raw, get_raw. rewrite I. destruct (get_int t s (num old)). now rewrite I.
Qed.

(** Reading in the classic locale what was written in another *)
Lemma dv_app : forall a b, decimal_value (a ++ b) = decimal_value a * 10 ^ Z.of_nat (length b) + decimal_value b.
Proof.
  induction a as [|c a IH]; intros b; cbn [app decimal_value]; [lia|]. rewrite IH, app_length, Nat2Z.inj_add, Z.pow_add_r by lia. ring.
Qed.
Lemma dv_bound : forall x, Forall decimal x -> 0 <= decimal_value x < 10 ^ Z.of_nat (length x).
Proof.
  induction x as [|c x IH]; intros X; [cbn; lia|]. inversion X; subst. specialize (IH H2).
  cbn [decimal_value length]. rewrite Nat2Z.inj_succ, Z.pow_succ_r by lia. unfold decimal in H1. nia.
Qed.

Lemma grouped_lead : forall p i ds text, usable p -> grouped p i ds text -> exists g hid more,
  text = g ++ more /\ ds = g ++ hid /\ g <> [] /\ Forall decimal g /\ Forall decimal hid /\ no_digit_first more /\ ~ In 47 more /\
  (hid = [] -> more = []) /\ (hid = [] <-> (limited (size_of (grouping p) i) -> Z.of_nat (length ds) <= size_of (grouping p) i)).
Proof.
  intros p i ds text U G. induction G as [i ds NE D L|i ds text d LIM LEN D G IH].
  - exists ds, [], []. rewrite !app_nil_r. repeat split; auto; cbn; tauto.
  - destruct IH as (g & hid & more & A & B & C & E & F & H & J & K & _). exists g, (hid ++ d), (more ++ [separator p] ++ d).
    subst. rewrite <- !app_assoc.
    assert (DN : d <> []) by (intros ->; unfold limited in LIM; cbn in LEN; lia).
    repeat split; auto.
    + apply Forall_app. auto.
    + destruct more; [cbn; apply U|exact H].
    + intros X. apply in_app_or in X as [X|X]; [now apply J|]. destruct X as [X|X]; [now apply (proj2 (proj2 (proj2 U)))|].
      rewrite Forall_forall in D. apply D in X. unfold decimal in X. lia.
    + intros X. destruct hid; [|discriminate]. cbn in X. contradiction.
    + intros X. destruct hid; [|discriminate]. cbn in X. contradiction.
    + intros X. exfalso. specialize (X LIM). rewrite !app_length in X. destruct g; [contradiction|]. cbn [length] in X. lia.
Qed.

Lemma read_part : forall p t z, usable p -> in_rep t z = true -> exists n more a,
  l_put_int p z = n ++ more /\ 0 <= a /\ reads_as t n (Z.quot z (10 ^ a)) /\ no_digit_first more /\ ~ In 47 more /\
  (a = 0 <-> one_group p z) /\ (a = 0 -> more = []).
Proof.
  intros p t z U I. destruct (put_int_grouped p z) as (ds & text & A & _ & G & NE & D & V & L).
  destruct (grouped_lead p 0 ds text U G) as (g & hid & more & T & E & GN & DG & DH & ND & NS & K & ONE). subst text ds.
  exists ((if z <? 0 then [45] else []) ++ g), more, (Z.of_nat (length hid)).
  assert (Q : Z.abs z / 10 ^ Z.of_nat (length hid) = decimal_value g).
  { rewrite <- V, dv_app. pose proof (dv_bound hid DH). rewrite Z.div_add_l by lia. rewrite (Z.div_small (decimal_value hid)) by lia. lia. }
  assert (P : 0 < 10 ^ Z.of_nat (length hid)) by lia.
  split; [now rewrite A, <- app_assoc|]. split; [lia|]. split; [|split; [auto|split; [auto|split]]].
  - exists (z <? 0), (decimal_value g). split.
    + destruct (z <? 0); cbn [app]; now constructor.
    + apply in_rep_iff in I.
      assert (QZ : Z.quot z (10 ^ Z.of_nat (length hid)) = if z <? 0 then - decimal_value g else decimal_value g).
      { rewrite <- Q. destruct (Z.ltb_spec z 0).
        - rewrite Z.abs_neq by lia. rewrite <- (Z.opp_involutive z) at 1. rewrite Z.quot_opp_l by lia. now rewrite Z.quot_div_nonneg by lia.
        - rewrite Z.abs_eq by lia. now rewrite Z.quot_div_nonneg by lia. }
      pose proof (dv_bound g DG) as BG.
      assert (LE : decimal_value g <= Z.abs z) by (rewrite <- Q; apply Z.div_le_upper_bound; nia).
      destruct (rsigned t) eqn:S.
      * split; auto. rewrite QZ. pose proof (rmin_rmax_signed t S). destruct (Z.ltb_spec z 0); lia.
      * pose proof (rmin_unsigned t S). destruct (Z.ltb_spec z 0); [lia|]. split; [lia|]. rewrite QZ. symmetry. apply Z.mod_small.
        unfold rmax in I. rewrite S in I. lia.
  - unfold one_group. assert (X : Z.of_nat (length hid) = 0 <-> hid = []) by (destruct hid; cbn; split; intros; auto; try discriminate; lia).
    rewrite X, ONE. unfold limited.
    assert (H : 0 < size_of (grouping p) 0 -> (Z.of_nat (length (g ++ hid)) <= size_of (grouping p) 0 <-> Z.abs z < 10 ^ size_of (grouping p) 0)).
    { intros S0. rewrite <- V. set (x := g ++ hid) in *. set (k := size_of (grouping p) 0) in *. pose proof (dv_bound x D) as BX. split.
      - intros LE. assert (10 ^ Z.of_nat (length x) <= 10 ^ k) by (apply Z.pow_le_mono_r; lia). lia.
      - intros LT. destruct L as [L|L]; [rewrite L; lia|]. destruct x as [|c x]; [contradiction|]. cbn [hd] in L. inversion D; subst.
        cbn [decimal_value] in LT. pose proof (dv_bound x H2). unfold decimal in H1.
        assert (10 ^ Z.of_nat (length x) < 10 ^ k) by nia. apply Z.pow_lt_mono_r_iff in H0; cbn [length]; lia. }
    split; intros Y Z0; specialize (Y Z0); apply H; auto; lia.
  - intros X. apply K. destruct hid; auto. cbn in X. lia.
Qed.

Lemma read_elsewhere : forall p t v rest old, usable p -> wf_raw t v -> no_digit_first rest -> exists a b tail,
  0 <= a /\ 0 <= b /\ get_raw t (mkIn (l_put_raw p v ++ rest) false false) old =
    (mkIn (tail ++ rest) false (at_end (tail ++ rest)), mkRaw (Z.quot (num v) (10 ^ a)) (Z.quot (den v) (10 ^ b))) /\
  (a = 0 <-> one_group p (num v)) /\ (b = 0 <-> one_group p (den v)) /\ (b = 0 -> tail = []).
Proof.
  intros p t v rest old U [N D] R.
  destruct (read_part p t (num v) U N) as (n & mid & a & A1 & A2 & A3 & A4 & A5 & A6 & A7).
  destruct (read_part p t (den v) U D) as (d & tail & b & B1 & B2 & B3 & B4 & B5 & B6 & B7).
  exists a, b, tail. split; auto. split; auto. split; [|auto].
  apply get_raw_ok. exists [], n, mid, [], d. unfold l_put_raw. rewrite A1, B1, <- !app_assoc. cbn [app num den].
  repeat split; auto. destruct tail; auto.
Qed.
