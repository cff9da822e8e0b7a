(** Lemmas on sufficient widths (C109). *)

From Coq Require Import ZArith QArith Bool Lia.
From Verif Require Import Machine Raw Ops Spec Fraction Mixed_spec Program Program_spec Defined_spec ProgDef_spec Width_spec.
From Verif Require Import Machine_proofs Value_proofs Fraction_proofs.
Open Scope Z_scope.

Lemma ev_and : forall P R, eventually P -> eventually R -> eventually (fun t => P t /\ R t).
Proof.
  intros P R [a A] [b B]. exists (Z.max a b). intros t S W. split; [apply A|apply B]; auto; lia.
Qed.
Lemma ev_mono : forall P R : rep -> Prop, (forall t, signed_rep t -> P t -> R t) -> eventually P -> eventually R.
Proof. intros P R H [w A]. exists w. intros t S W. auto. Qed.
Lemma ev_true : forall P : rep -> Prop, (forall t, signed_rep t -> P t) -> eventually P.
Proof. intros P H. exists 0. auto. Qed.
Lemma ev_max : forall N, eventually (fun t => N <= rmax t).
Proof.
  intros N. exists (Z.max 0 N + 2). intros t [W S] L. unfold rmax. rewrite S.
  assert (Z.max 0 N + 1 < 2 ^ (Z.max 0 N + 1)) by (apply Z.pow_gt_lin_r; lia).
  assert (2 ^ (Z.max 0 N + 1) <= 2 ^ (rbits t - 1)) by (apply Z.pow_le_mono_r; lia). lia.
Qed.
Lemma ev_at : forall (P : rep -> Prop) (Q : Prop), (forall t, signed_rep t -> P t -> Q) -> eventually P -> Q.
Proof.
  intros P Q H [w A]. apply (H (mkRep true (Z.max 32 w))).
  - split; [unfold wf_rep; cbn; lia|reflexivity].
  - apply A; [split; [unfold wf_rep; cbn; lia|reflexivity]|cbn; lia].
Qed.

(** ** Types do not change meanings *)

Lemma imeaning_retype : forall q t i, imeaning q (retype_i t i) = imeaning q i.
Proof. intros q t []; reflexivity. Qed.
Lemma fmeaning_retype : forall q t e, fmeaning q (retype_f t e) = fmeaning q e.
Proof. intros q t. induction e; cbn; rewrite ?imeaning_retype; congruence. Qed.
Lemma bmeaning_retype : forall q t b, bmeaning q (retype_b t b) = bmeaning q b.
Proof. intros q t. induction b; cbn; rewrite ?imeaning_retype, ?fmeaning_retype; congruence. Qed.
Lemma run_retype : forall t fuel q c, run fuel q (retype_s t c) = run fuel q c.
Proof.
  intros t. induction fuel as [|fuel IH]; intros q c; [reflexivity|].
  destruct c as [|x e|op x e|op x i|a b|g a b|g a]; cbn; rewrite ?imeaning_retype, ?fmeaning_retype, ?bmeaning_retype; auto.
  - rewrite IH. destruct (run fuel q a); auto.
  - destruct (bmeaning q g); auto.
  - rewrite IH. destruct (bmeaning q g); auto. destruct (run fuel q a); auto. change (SWhile (retype_b t g) (retype_s t a)) with (retype_s t (SWhile g a)). apply IH.
Qed.
Lemma itype_retype : forall t i, itype (fun _ => t) (retype_i t i) = t.
Proof. intros t []; reflexivity. Qed.
Lemma ftype_retype : forall t e, ftype (fun _ => t) (retype_f t e) = t.
Proof. intros t. induction e; cbn; rewrite ?IHe, ?IHe1, ?IHe2, ?itype_retype, ?common_self; reflexivity. Qed.

(** ** Conditions that hold from some width on *)

Lemma bounded_ev : forall v, eventually (fun t => bounded (rmax t) v).
Proof. intros [q|]; [apply ev_max|apply ev_true; cbn; auto]. Qed.
Lemma common_ev : forall x y, eventually (fun t => common_fits (rmax t) x y).
Proof.
  intros x y. apply (ev_mono (fun t => Z.max (least_den x y) (Z.max (Z.abs (over x (least_den x y))) (Z.abs (over y (least_den x y)))) <= rmax t)); [|apply ev_max].
  intros t _ H. unfold common_fits. cbv zeta. lia.
Qed.
Lemma enough_ev : forall op x y, (op = Modulus -> ~ (y == 0)%Q) -> eventually (fun t => enough (rmax t) op x y).
Proof.
  intros op x y H. pose proof (common_ev x y) as C. set (L := least_den x y) in *.
  destruct op; unfold enough; fold L; cbv zeta.
  - apply ev_and; [exact C|apply ev_max].
  - apply ev_and; [exact C|apply ev_max].
  - apply ev_and; apply ev_max.
  - apply (ev_mono (fun t => Z.abs (low_num x * low_den y) <= rmax t /\ Z.abs (low_den x * low_num y) <= rmax t)); [tauto|]. apply ev_and; apply ev_max.
  - apply ev_and; [exact C|]. apply ev_and; [apply ev_true; auto|].
    apply (ev_mono (fun t => Z.abs (over x L) <= rmax t)); [|apply ev_max]. intros t _ B [E _]. lia.
Qed.
Lemma arith_ev : forall op a b, arith_possible op a b -> eventually (fun t => arith_defined (rmax t) op a b).
Proof.
  intros op a b H. unfold arith_defined. apply ev_and; [apply bounded_ev|]. apply ev_and; [apply bounded_ev|].
  destruct a, b; cbn in H; [now apply enough_ev| | |]; apply ev_true; auto.
Qed.
Lemma inject_nz : forall z, z <> 0 -> ~ (inject_Z z == 0)%Q.
Proof. intros z H E. apply H. unfold Qeq in E. cbn in E. lia. Qed.
Lemma arith_int_ev : forall op a z, arith_int_possible op a z -> eventually (fun t => arith_int_defined (rmax t) op a z).
Proof.
  intros op a z H. unfold arith_int_defined. apply ev_and; [apply bounded_ev|].
  destruct a; [apply enough_ev; intros M; now apply inject_nz, H|apply ev_true]. intros t _ M. now destruct (H M).
Qed.
Lemma int_arith_ev : forall op z b, int_arith_possible op b -> eventually (fun t => int_arith_defined (rmax t) op z b).
Proof.
  intros op z b H. unfold int_arith_defined. apply ev_and; [apply bounded_ev|].
  destruct b; [apply enough_ev; intros M; destruct (H M) as (y & E & N); injection E as ->; exact N|apply ev_true].
  intros t _ M. destruct (H M) as (y & E & _). discriminate.
Qed.
Lemma cmp_ev : forall a b, eventually (fun t => cmp_defined (rmax t) a b).
Proof.
  intros a b. unfold cmp_defined. apply ev_and; [apply bounded_ev|]. apply ev_and; [apply bounded_ev|].
  destruct a, b; [apply common_ev| | |]; apply ev_true; auto.
Qed.

(** ** Expressions, conditions, programs *)

Lemma f_ev : forall q e, fpossible q e -> eventually (fun t => fdefined (fun _ => t) q (retype_f t e)).
Proof.
  intros q. induction e as [x|t r|i|e IHe|e IHe|e IHe|e IHe|op e1 IHe1 e2 IHe2|op e IHe i|op i e IHe]; intros H; cbn [fpossible retype_f fdefined] in *; try (apply ev_true; now auto).
  - apply ev_true. intros. now rewrite imeaning_retype.
  - auto.
  - apply (ev_mono (fun t => fdefined (fun _ => t) q (retype_f t e) /\ bounded (rmax t) (fmeaning q e))).
    { intros t _ [A B]. now rewrite ftype_retype, fmeaning_retype. } apply ev_and; [auto|apply bounded_ev].
  - apply (ev_mono (fun t => fdefined (fun _ => t) q (retype_f t e) /\ bounded (rmax t) (fmeaning q e))).
    { intros t _ [A B]. now rewrite ftype_retype, fmeaning_retype. } apply ev_and; [auto|apply bounded_ev].
  - apply (ev_mono (fun t => fdefined (fun _ => t) q (retype_f t e) /\ bounded (rmax t) (fmeaning q e))).
    { intros t _ [A B]. now rewrite ftype_retype, fmeaning_retype. } apply ev_and; [auto|apply bounded_ev].
  - destruct H as (H1 & H2 & H3).
    apply (ev_mono (fun t => fdefined (fun _ => t) q (retype_f t e1) /\ fdefined (fun _ => t) q (retype_f t e2) /\ arith_defined (rmax t) op (fmeaning q e1) (fmeaning q e2))).
    { intros t _ A. now rewrite !ftype_retype, !fmeaning_retype, common_self. }
    apply ev_and; [auto|]. apply ev_and; [auto|]. now apply arith_ev.
  - destruct H as (H1 & z & E & H3).
    apply (ev_mono (fun t => fdefined (fun _ => t) q (retype_f t e) /\ arith_int_defined (rmax t) op (fmeaning q e) z)).
    { intros t _ [A B]. rewrite ftype_retype, itype_retype, fmeaning_retype, common_self, imeaning_retype. eauto. }
    apply ev_and; [auto|]. now apply arith_int_ev.
  - destruct H as (H1 & E & H3). destruct (imeaning q i) as [z|] eqn:I; [|contradiction].
    apply (ev_mono (fun t => fdefined (fun _ => t) q (retype_f t e) /\ int_arith_defined (rmax t) op z (fmeaning q e))).
    { intros t _ [A B]. rewrite ftype_retype, itype_retype, fmeaning_retype, common_self, imeaning_retype. eauto. }
    apply ev_and; [auto|]. now apply int_arith_ev.
Qed.

Lemma b_ev : forall q b, bpossible q b -> eventually (fun t => bdefined (fun _ => t) q (retype_b t b)).
Proof.
  intros q. induction b as [op l r|op l i|op i r|b IHb|b1 IHb1 b2 IHb2|b1 IHb1 b2 IHb2]; intros H; cbn [bpossible retype_b bdefined] in *.
  - destruct H as (H1 & H2).
    apply (ev_mono (fun t => fdefined (fun _ => t) q (retype_f t l) /\ fdefined (fun _ => t) q (retype_f t r) /\ cmp_defined (rmax t) (fmeaning q l) (fmeaning q r))).
    { intros t _ A. now rewrite !ftype_retype, !fmeaning_retype, common_self. }
    apply ev_and; [now apply f_ev|]. apply ev_and; [now apply f_ev|]. apply cmp_ev.
  - destruct H as (H1 & E). destruct (imeaning q i) as [z|] eqn:I; [|contradiction].
    apply (ev_mono (fun t => fdefined (fun _ => t) q (retype_f t l) /\ cmp_defined (rmax t) (fmeaning q l) (Some (inject_Z z)))).
    { intros t _ [A B]. rewrite ftype_retype, itype_retype, fmeaning_retype, common_self, imeaning_retype. split; auto. exists z. split; auto.
      destruct B as (B1 & _ & B2). split; auto. }
    apply ev_and; [now apply f_ev|]. apply cmp_ev.
  - destruct H as (H1 & E). destruct (imeaning q i) as [z|] eqn:I; [|contradiction].
    apply (ev_mono (fun t => fdefined (fun _ => t) q (retype_f t r) /\ cmp_defined (rmax t) (Some (inject_Z z)) (fmeaning q r))).
    { intros t _ [A B]. rewrite ftype_retype, itype_retype, fmeaning_retype, common_self, imeaning_retype. split; auto. exists z. split; auto.
      destruct B as (_ & B1 & B2). split; auto. }
    apply ev_and; [now apply f_ev|]. apply cmp_ev.
  - auto.
  - destruct H as [H1 H2].
    destruct (bmeaning q b1) eqn:B.
    + apply (ev_mono (fun t => bdefined (fun _ => t) q (retype_b t b1) /\ bdefined (fun _ => t) q (retype_b t b2))); [tauto|]. apply ev_and; auto.
    + apply (ev_mono (fun t => bdefined (fun _ => t) q (retype_b t b1))); [|auto]. intros t _ A. rewrite bmeaning_retype, B. split; auto. discriminate.
  - destruct H as [H1 H2].
    destruct (bmeaning q b1) eqn:B.
    + apply (ev_mono (fun t => bdefined (fun _ => t) q (retype_b t b1))); [|auto]. intros t _ A. rewrite bmeaning_retype, B. split; auto. discriminate.
    + apply (ev_mono (fun t => bdefined (fun _ => t) q (retype_b t b1) /\ bdefined (fun _ => t) q (retype_b t b2))); [tauto|]. apply ev_and; auto.
Qed.

Lemma s_ev : forall fuel q c, run_possible fuel q c -> eventually (fun t => run_defined (fun _ => t) fuel q (retype_s t c)).
Proof.
  induction fuel as [|fuel IH]; intros q c H; [destruct H|].
  destruct c as [|x e|op x e|op x i|c1 c2|c1 c2 c3|c1 c2]; cbn [run_possible retype_s run_defined] in *.
  - apply ev_true. auto.
  - now apply f_ev.
  - destruct H as [H1 H2].
    apply (ev_mono (fun t => fdefined (fun _ => t) q (retype_f t e) /\ arith_defined (rmax t) op (q x) (fmeaning q e))).
    { intros t _ A. now rewrite fmeaning_retype. }
    apply ev_and; [now apply f_ev|now apply arith_ev].
  - destruct H as (z & E & H). apply (ev_mono (fun t => arith_int_defined (rmax t) op (q x) z)); [|now apply arith_int_ev].
    intros t _ A. exists z. now rewrite imeaning_retype.
  - destruct H as (H1 & q' & R & H2).
    apply (ev_mono (fun t => run_defined (fun _ => t) fuel q (retype_s t c1) /\ run_defined (fun _ => t) fuel q' (retype_s t c2))).
    { intros t _ [A B]. split; auto. exists q'. now rewrite run_retype. }
    apply ev_and; auto.
  - destruct H as [H1 H2].
    apply (ev_mono (fun t => bdefined (fun _ => t) q (retype_b t c1) /\ run_defined (fun _ => t) fuel q (retype_s t (if bmeaning q c1 then c2 else c3)))).
    { intros t _ [A B]. split; auto. rewrite bmeaning_retype. now destruct (bmeaning q c1). }
    apply ev_and; [now apply b_ev|auto].
  - destruct H as [H1 H2]. destruct (bmeaning q c1) eqn:B.
    + destruct (H2 eq_refl) as (H3 & q' & R & H4).
      apply (ev_mono (fun t => bdefined (fun _ => t) q (retype_b t c1) /\ run_defined (fun _ => t) fuel q (retype_s t c2) /\
                               run_defined (fun _ => t) fuel q' (retype_s t (SWhile c1 c2)))).
      { intros t _ (A & C & D). split; auto. intros _. split; auto. exists q'. now rewrite run_retype. }
      apply ev_and; [now apply b_ev|]. apply ev_and; auto.
    + apply (ev_mono (fun t => bdefined (fun _ => t) q (retype_b t c1))); [|now apply b_ev].
      intros t _ A. split; auto. rewrite bmeaning_retype, B. discriminate.
Qed.

(** ** Conversely, what is defined at one width is possible *)

Lemma enough_possible : forall M op x y, enough M op x y -> op = Modulus -> ~ (y == 0)%Q.
Proof. intros M op x y H ->. apply H. Qed.
Lemma arith_back : forall M op a b, arith_defined M op a b -> arith_possible op a b.
Proof. intros M op a b (_ & _ & H). destruct a, b; auto. cbn. exact (enough_possible M op q q0 H). Qed.
Lemma arith_int_back : forall M op a z, arith_int_defined M op a z -> arith_int_possible op a z.
Proof.
  intros M op a z [_ H] E. destruct a; [|contradiction]. split; [discriminate|].
  intros ->. now apply (enough_possible M op q 0 H E).
Qed.
Lemma int_arith_back : forall M op z b, int_arith_defined M op z b -> int_arith_possible op b.
Proof.
  intros M op z b [_ H] E. destruct b as [y|]; [|contradiction]. exists y. split; auto. now apply (enough_possible M op (inject_Z z)).
Qed.

Lemma f_back : forall ty q t e, fdefined ty q (retype_f t e) -> fpossible q e.
Proof.
  intros ty q t. induction e as [x|t' r|i|e IHe|e IHe|e IHe|e IHe|op e1 IHe1 e2 IHe2|op e IHe i|op i e IHe]; cbn [fpossible retype_f fdefined]; rewrite ?imeaning_retype, ?fmeaning_retype; auto; try tauto.
  - intros (A & B & C). apply arith_back in C. auto.
  - intros (A & z & E & C). apply arith_int_back in C. eauto.
  - intros (A & z & E & C). apply int_arith_back in C. rewrite E. repeat split; auto. discriminate.
Qed.
Lemma b_back : forall ty q t b, bdefined ty q (retype_b t b) -> bpossible q b.
Proof.
  intros ty q t. induction b; cbn [bpossible retype_b bdefined]; rewrite ?imeaning_retype, ?fmeaning_retype, ?bmeaning_retype; auto.
  - intros (A & B & _). split; eapply f_back; eauto.
  - intros (A & z & E & _). rewrite E. split; [eapply f_back; eauto|discriminate].
  - intros (A & z & E & _). rewrite E. split; [eapply f_back; eauto|discriminate].
  - tauto.
  - tauto.
Qed.
Lemma s_back : forall ty t fuel q c, run_defined ty fuel q (retype_s t c) -> run_possible fuel q c.
Proof.
  intros ty t. induction fuel as [|fuel IH]; intros q c; [auto|].
  destruct c as [|x e|op x e|op x i|a b|b x y|b x]; cbn [run_possible retype_s run_defined]; rewrite ?imeaning_retype, ?fmeaning_retype, ?bmeaning_retype, ?run_retype.
  - auto.
  - apply f_back.
  - intros [A B]. apply arith_back in B. split; auto. eapply f_back; eauto.
  - intros (z & E & A). apply arith_int_back in A. eauto.
  - intros (A & q' & R & B). eauto 6.
  - intros [A B]. split; [eapply b_back; eauto|]. apply IH. now destruct (bmeaning q b).
  - intros [A B]. split; [eapply b_back; eauto|]. intros T. destruct (B T) as (C & q' & R & D). split; auto. exists q'. split; auto.
Qed.

(** ** The program is well formed from some width on *)

Lemma ev_signed : eventually signed_rep.
Proof. apply ev_true. auto. Qed.
Lemma ev_in : forall z, eventually (fun t => in_rep t z = true).
Proof.
  intros z. apply (ev_mono (fun t => Z.abs z <= rmax t)); [|apply ev_max]. intros t [W S] H. apply in_rep_iff.
  assert (rmin t = - rmax t - 1) by (unfold rmin, rmax; rewrite S; lia). lia.
Qed.
Lemma ev_raw : forall r, eventually (fun t => wf_raw t r).
Proof. intros r. apply ev_and; apply ev_in. Qed.
Lemma i_wf : forall i, eventually (fun t => wf_i (fun _ => t) (retype_i t i)).
Proof. intros []; cbn; try (now apply ev_true). apply ev_and; [apply ev_signed|apply ev_in]. Qed.
Lemma f_wf : forall e, lowest_f e -> eventually (fun t => wf_f (fun _ => t) (retype_f t e)).
Proof.
  induction e as [x|t r|i|e IHe|e IHe|e IHe|e IHe|op e1 IHe1 e2 IHe2|op e IHe i|op i e IHe]; cbn [lowest_f retype_f wf_f]; intros H; auto.
  - now apply ev_true.
  - apply ev_and; [apply ev_signed|]. apply ev_and; [apply ev_raw|now apply ev_true].
  - apply i_wf.
  - destruct H. apply ev_and; auto.
  - apply ev_and; [auto|apply i_wf].
  - apply ev_and; [apply i_wf|auto].
Qed.
Lemma b_wf : forall b, lowest_b b -> eventually (fun t => wf_b (fun _ => t) (retype_b t b)).
Proof.
  induction b as [op l r|op l i|op i r|b IHb|b1 IHb1 b2 IHb2|b1 IHb1 b2 IHb2]; cbn [lowest_b retype_b wf_b]; intros H; auto.
  - destruct H. apply ev_and; now apply f_wf.
  - apply ev_and; [now apply f_wf|apply i_wf].
  - apply ev_and; [apply i_wf|now apply f_wf].
  - destruct H. apply ev_and; auto.
  - destruct H. apply ev_and; auto.
Qed.
Lemma s_wf : forall c, lowest_s c -> eventually (fun t => wf_s (fun _ => t) (retype_s t c)).
Proof.
  induction c as [|x e|op x e|op x i|a IHa b IHb|g a IHa b IHb|g a IHa]; cbn [lowest_s retype_s wf_s]; intros H.
  - now apply ev_true.
  - apply ev_and; [now apply f_wf|]. apply ev_true. intros t _. rewrite ftype_retype. lia.
  - apply ev_and; [now apply f_wf|]. apply ev_true. intros t _. rewrite ftype_retype. lia.
  - apply ev_and; [apply i_wf|]. apply ev_true. intros t _. rewrite itype_retype. lia.
  - destruct H. apply ev_and; auto.
  - destruct H as (H1 & H2 & H3). apply ev_and; [now apply b_wf|]. apply ev_and; auto.
  - destruct H. apply ev_and; [now apply b_wf|auto].
Qed.
Lemma store_wf : forall t0 s, wf_store (fun _ => t0) s -> eventually (fun t => wf_store (fun _ => t) s).
Proof.
  intros t0 s H. exists (rbits t0). intros t [W S] L x. destruct (H x) as ([W0 S0] & [A B] & C). split; [split; auto|]. split; auto.
  assert (M : rmax t0 <= rmax t /\ rmin t <= rmin t0).
  { unfold wf_rep in *. unfold rmax, rmin. rewrite S, S0. assert (2 ^ (rbits t0 - 1) <= 2 ^ (rbits t - 1)) by (apply Z.pow_le_mono_r; lia). lia. }
  apply in_rep_iff in A. apply in_rep_iff in B. split; apply in_rep_iff; lia.
Qed.
