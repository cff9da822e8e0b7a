(** When reducing operands is redundant. *)

From Coq Require Import ZArith List Bool Lia.
From Verif Require Import Machine Raw Ops Spec Fraction Fraction_spec Fmath Mixed_spec Program Wide_spec Stack_spec Redundant_spec.
From Verif Require Import Machine_proofs Value_proofs Ops_proofs Fraction_proofs Wide_proofs Stack_proofs Mixed_proofs.
Import ListNotations.
Open Scope Z_scope.

Lemma settled_den : forall t v, wf_rep t -> settled t v -> Z.abs (den v) <= rmax t.
Proof.
  intros t v W ((A & B) & C & D). pose proof (rmax_big t W). apply in_rep_iff in B. destruct C as [[_ ->]|[P _]]; [cbn; lia|]. lia.
Qed.
Lemma reduce_settled : forall t v m, wf_rep t -> settled t v -> reduce t v m = Ok v.
Proof.
  intros t v m W S. pose proof (settled_den t v W S) as Ad. destruct S as ([W1 W2] & C & An). destruct C as [[Hn Hd]|[P G]].
  - destruct v as [n d]; cbn in Hn, Hd; subst. destruct m; cbn [reduce]; [|reflexivity].
    unfold reduce_normalize_signs; cbn. unfold normalize_signs; cbn. unfold m_neg. rewrite !arith_in by auto. reflexivity.
  - assert (I : reduce_ignore_signs t v = Ok v).
    { unfold reduce_ignore_signs. destruct (is_undefined v) eqn:U; [apply is_undefined_iff in U; lia|].
      unfold std_gcd. rewrite (proj2 (abs_in_rep_iff t (num v) W) An), (proj2 (abs_in_rep_iff t (den v) W) Ad).
      cbn [andb bind]. rewrite G. rewrite !m_div_in by (rewrite ?Z.quot_1_r; auto; lia). cbn [bind]. rewrite !Z.quot_1_r. destruct v; reflexivity. }
    destruct m; cbn [reduce]; [|exact I]. unfold reduce_normalize_signs. rewrite I. cbn [bind].
    unfold normalize_signs. destruct (Z.gtb_spec (den v) 0); [reflexivity|lia].
Qed.
Lemma reduced_settled : forall t v r, wf_rep t -> wf_raw t v -> reduce t v normalize_signs_mode = Ok r -> settled t r.
Proof.
  intros t v r W V H. destruct (reduce_spec t v normalize_signs_mode r W V H) as (Wr & R & B).
  pose proof (reduces_bound _ _ _ R) as [Bn Bd]. split; [exact Wr|]. split; [now apply reduces_canonical in R|].
  destruct (Z.eq_dec (den v) 0) as [D|D]; [|specialize (B D); lia].
  destruct R as [[_ ->]|[D' _]]; [|contradiction]. pose proof (rmax_big t W). cbn. lia.
Qed.

Lemma settled_wf_args : forall t a, settled_args t a -> wf_args t a.
Proof. intros t [l r|l z|z r] A; cbn in *; unfold settled in A; tauto. Qed.
Lemma layer_settled : forall t a l, wf_rep t -> settled_args t a -> layer_args t a l = Ok a.
Proof.
  intros t a l W A. destruct l; cbn [layer_args]; [reflexivity| |]; destruct a as [x y|x z|z y]; destruct A; cbn [reduce_args];
    rewrite !reduce_settled by auto; reflexivity.
Qed.
Lemma layer_raw_settled : forall t v l, wf_rep t -> settled t v -> layer_raw t v l = Ok v.
Proof. intros t v l W A. destruct l; cbn [layer_raw]; [reflexivity| |]; now apply reduce_settled. Qed.

Lemma no_input_parts : forall o, bottom (no_input o) = bottom o /\ input_modes (no_input o) = [] /\ output_modes (no_input o) = output_modes o.
Proof. induction o as [| |o IH m|o IH m]; cbn; auto. destruct IH as (A & B & C). rewrite C. auto. Qed.

Lemma no_input_arith : forall o t op a, wf_rep t -> settled_args t a ->
  p_arith (denote o) t op a = p_arith (denote (no_input o)) t op a.
Proof.
  intros o t op a W A. pose proof (settled_wf_args t a A). rewrite !arith_shape by auto.
  destruct (no_input_parts o) as (-> & -> & ->). now rewrite !layer_settled.
Qed.
Lemma no_input_cmp : forall o t op a, wf_rep t -> settled_args t a ->
  p_cmp (denote o) t op a = p_cmp (denote (no_input o)) t op a.
Proof.
  intros o t op a W A. pose proof (settled_wf_args t a A). rewrite !cmp_shape by auto.
  destruct (no_input_parts o) as (-> & -> & _). now rewrite !layer_settled.
Qed.
Lemma no_input_negate : forall o t v, wf_rep t -> settled t v -> p_negate (denote o) t v = p_negate (denote (no_input o)) t v.
Proof.
  intros o t v W A. assert (wf_raw t v) by apply A. rewrite !negate_shape by auto.
  destruct (no_input_parts o) as (-> & -> & ->). now rewrite !layer_raw_settled.
Qed.

Lemma normalises_effect : forall o, normalises_output o -> effect (output_modes o) = Normalising.
Proof.
  intros o H. unfold effect. rewrite (proj2 (existsb_exists _ _)); [reflexivity|]. exists normalize_signs_mode. auto.
Qed.
Lemma arith_settled : forall o t op a r, wf_rep t -> wf_args t a -> normalises_output o -> p_arith (denote o) t op a = Ok r -> settled t r.
Proof.
  intros o t op a r W A N H. rewrite arith_shape, (normalises_effect o N) in H by auto.
  destruct (layer_args t a (effect (input_modes o))) as [b|] eqn:E; [|discriminate]. cbn [bind] in H.
  destruct (p_arith (denote (bottom o)) t op b) as [q|] eqn:E'; [|discriminate]. cbn [bind layer_raw] in H.
  apply (reduced_settled t q r W); [|exact H]. apply (arith_wf (bottom o) t op b q W); [|exact E']. eapply layer_args_wf; eauto.
Qed.
Lemma negate_settled : forall o t v r, wf_rep t -> wf_raw t v -> normalises_output o -> p_negate (denote o) t v = Ok r -> settled t r.
Proof.
  intros o t v r W A N H. rewrite negate_shape, (normalises_effect o N) in H by auto.
  destruct (layer_raw t v _) as [b|] eqn:E; [|discriminate]. cbn [bind] in H.
  destruct (p_negate (denote (bottom o)) t b) as [q|] eqn:E'; [|discriminate]. cbn [bind layer_raw] in H.
  apply (reduced_settled t q r W); [|exact H]. apply (negate_wf (bottom o) t b q W); [|exact E']. eapply layer_raw_wf; eauto.
Qed.

(** ** Programs *)

Lemma settled_wider : forall t u v, wider t u -> settled t v -> settled u v.
Proof.
  intros t u v W (A & B & C). destruct (wide_range t u W). split; [now apply (wide_raw t u)|]. split; [exact B|lia].
Qed.
Lemma settled_raw : forall t v, settled t v -> wf_raw t v. Proof. intros t v H. apply H. Qed.

Definition settled_args2 (a b : rep) (x : args) : Prop :=
  match x with
  | RR l r => settled a l /\ settled b r
  | RI l z => settled a l /\ in_rep b z = true
  | IR z r => in_rep a z = true /\ settled b r
  end.
Lemma settled_common : forall a b x, signed_rep a -> signed_rep b -> settled_args2 a b x ->
  common_args a b x = x /\ settled_args (common_rep a b) x /\ wf_rep (common_rep a b).
Proof.
  intros a b x A B H. pose proof (wider_refl a A) as Wa. pose proof (wider_refl b B) as Wb.
  destruct (common_both a b a b Wa Wb) as ((Sc & _) & La & Lb).
  assert (Xa : wider a (common_rep a b)) by (split; auto). assert (Xb : wider b (common_rep a b)) by (split; auto).
  split; [|split; [|apply Sc]].
  - apply (common_args_both a b a b x Wa Wb). destruct x; cbn in *; unfold settled in H; tauto.
  - destruct x; cbn in *; destruct H; split; eauto using settled_wider, wide_in.
Qed.

Section Program.
  Variable o : ops.
  Hypothesis N : normalises_output o.
  Variable ty : nat -> rep.
  Hypothesis T : forall x, signed_rep (ty x).

  Lemma itype_signed : forall i, static_i i -> signed_rep (itype ty i).
  Proof. intros [t z|x|x|x] S; cbn in *; auto. apply S. Qed.
  Lemma ftype_signed : forall e, static_f e -> signed_rep (ftype ty e).
  Proof.
    induction e as [x|t r|i|e IH|e IH|e IH|e IH|op l IHl r IHr|op l IH i|op i r IH]; cbn; intros S; auto.
    - apply S.
    - now apply itype_signed.
    - destruct S. apply common_signed; auto.
    - destruct S. apply common_signed; auto using itype_signed.
    - destruct S. apply common_signed; auto using itype_signed.
  Qed.
  Lemma ieval_fits : forall s i z, settled_store ty s -> static_i i -> ieval ty s i = Ok z -> in_rep (itype ty i) z = true.
  Proof.
    intros s [t z'|x|x|x] z M S H; cbn in *.
    - injection H as <-. apply S.
    - injection H as <-. apply (M x).
    - injection H as <-. apply (M x).
    - unfold f_trunc in H. apply (m_div_result_in _ _ _ _ (proj1 (T x)) H).
  Qed.
  Lemma ieval_small : forall s i z, settled_store ty s -> static_i i ->
    match i with IConst s z => Z.abs z <= rmax s | _ => True end -> ieval ty s i = Ok z -> Z.abs z <= rmax (itype ty i).
  Proof.
    intros s [t z'|x|x|x] z M S K H; cbn in *.
    - injection H as <-. exact K.
    - injection H as <-. apply (M x).
    - injection H as <-. apply (settled_den _ _ (proj1 (T x)) (M x)).
    - unfold f_trunc in H. destruct (Z.eq_dec (den (s x)) 0) as [D|D].
      + unfold m_div in H. rewrite D in H. discriminate.
      + assert (z = Z.quot (num (s x)) (den (s x))) as ->. { unfold m_div in H. destruct (Z.eqb_spec (den (s x)) 0); [contradiction|].
          unfold arith in H. rewrite (proj2 (T x)) in H. destruct (in_rep (ty x) _); [now injection H|discriminate]. }
        destruct (M x) as (_ & _ & B).
        assert (Z.abs (Z.quot (num (s x)) (den (s x))) <= Z.abs (num (s x))); [|lia].
        rewrite <- Z.quot_abs by auto. apply Z.quot_le_upper_bound; [lia|]. nia.
  Qed.

  Lemma arith2 : forall a b op x, signed_rep a -> signed_rep b -> settled_args2 a b x ->
    f_arith (denote o) a b op x = f_arith (denote (no_input o)) a b op x /\
    (forall r, f_arith (denote o) a b op x = Ok r -> settled (common_rep a b) r).
  Proof.
    intros a b op x A B H. destruct (settled_common a b x A B H) as (E & S & W). unfold f_arith. rewrite E. split.
    - now apply no_input_arith.
    - intros r. apply arith_settled; auto. now apply settled_wf_args.
  Qed.
  Lemma cmp2 : forall a b op x, signed_rep a -> signed_rep b -> settled_args2 a b x ->
    f_cmp (denote o) a b op x = f_cmp (denote (no_input o)) a b op x.
  Proof.
    intros a b op x A B H. destruct (settled_common a b x A B H) as (E & S & W). unfold f_cmp. rewrite E. now apply no_input_cmp.
  Qed.

  Lemma feval_redundant : forall s e, settled_store ty s -> static_f e -> settled_f e ->
    feval (denote o) ty s e = feval (denote (no_input o)) ty s e /\
    (forall r, feval (denote o) ty s e = Ok r -> settled (ftype ty e) r).
  Proof.
    intros s e M. induction e as [x|t r|i|e IH|e IH|e IH|e IH|op l IHl r IHr|op l IH i|op i r IH]; cbn [feval ftype static_f settled_f]; intros S P.
    - split; [reflexivity|]. intros r H. injection H as <-. apply (M x).
    - split; [reflexivity|]. intros r' H. injection H as <-. apply P.
    - split; [reflexivity|]. intros r H. inv_bind H. injection H as <-.
      pose proof (ieval_fits s i a M S E) as F. pose proof (ieval_small s i a M S P E) as K. pose proof (itype_signed i S) as [W _].
      unfold f_of_int. split; [split; [exact F|]|split; [right|exact K]].
      + cbn. apply in_rep_iff. pose proof (rmax_big _ W). unfold rmin. destruct (rsigned (itype ty i)); [|lia].
        assert (0 < 2 ^ (rbits (itype ty i) - 1)) by (apply Z.pow_pos_nonneg; unfold wf_rep in W; lia). lia.
      + cbn. split; [lia|]. apply Z.gcd_1_r.
    - destruct (IH S P) as [<- V]. split; [reflexivity|]. intros r H. inv_bind H. injection H as <-. now apply V.
    - destruct (IH S P) as [<- V]. pose proof (ftype_signed e S) as [W _]. split.
      + apply bind_ext. intros v E. apply no_input_negate; auto.
      + intros r H. inv_bind H. apply (negate_settled o _ a r W); auto. apply settled_raw. auto.
    - destruct (IH S P) as [<- V]. pose proof (ftype_signed e S) as [W _]. split.
      + apply bind_ext. intros v E. unfold f_abs. destruct (is_non_negative v); [reflexivity|]. apply no_input_negate; auto.
      + intros r H. inv_bind H. unfold f_abs in H. destruct (is_non_negative a); [injection H as <-; auto|].
        apply (negate_settled o _ a r W); auto. apply settled_raw. auto.
    - destruct (IH S P) as [<- V]. pose proof (ftype_signed e S) as [W _]. split; [reflexivity|].
      intros r H. inv_bind H. apply (reduced_settled _ a r W); [|exact H]. apply settled_raw. auto.
    - destruct S as [Sl Sr], P as [Pl Pr]. destruct (IHl Sl Pl) as [<- Vl], (IHr Sr Pr) as [<- Vr].
      pose proof (ftype_signed l Sl) as Wl. pose proof (ftype_signed r Sr) as Wr. split.
      + apply bind_ext. intros x E. apply bind_ext. intros y E'. apply arith2; auto. split; auto.
      + intros q H. inv_bind H. apply (proj2 (arith2 _ _ op (RR a a0) Wl Wr ltac:(split; auto)) q H).
    - destruct S as [Sl Si]. destruct (IH Sl P) as [<- Vl].
      pose proof (ftype_signed l Sl) as Wl. pose proof (itype_signed i Si) as Wi. split.
      + apply bind_ext. intros x E. apply bind_ext. intros y E'. apply arith2; auto. split; [auto|]. now apply (ieval_fits s i).
      + intros q H. inv_bind H. apply (proj2 (arith2 _ _ op (RI a a0) Wl Wi ltac:(split; [auto|now apply (ieval_fits s i)])) q H).
    - destruct S as [Si Sr]. destruct (IH Sr P) as [<- Vr].
      pose proof (ftype_signed r Sr) as Wr. pose proof (itype_signed i Si) as Wi. split.
      + apply bind_ext. intros x E. apply bind_ext. intros y E'. apply arith2; auto. split; [now apply (ieval_fits s i)|auto].
      + intros q H. inv_bind H. apply (proj2 (arith2 _ _ op (IR a a0) Wi Wr ltac:(split; [now apply (ieval_fits s i)|auto])) q H).
  Qed.

  Lemma beval_redundant : forall s b, settled_store ty s -> static_b b -> settled_b b ->
    beval (denote o) ty s b = beval (denote (no_input o)) ty s b.
  Proof.
    intros s b M. induction b as [op l r|op l i|op i r|b IH|a IHa b IHb|a IHa b IHb]; cbn [beval static_b settled_b]; intros S P.
    - destruct S as [Sl Sr], P as [Pl Pr]. destruct (feval_redundant s l M Sl Pl) as [<- Vl], (feval_redundant s r M Sr Pr) as [<- Vr].
      apply bind_ext. intros x E. apply bind_ext. intros y E'. apply cmp2; auto using ftype_signed. split; auto.
    - destruct S as [Sl Si]. destruct (feval_redundant s l M Sl P) as [<- Vl].
      apply bind_ext. intros x E. apply bind_ext. intros y E'. apply cmp2; auto using ftype_signed, itype_signed. split; [auto|now apply (ieval_fits s i)].
    - destruct S as [Si Sr]. destruct (feval_redundant s r M Sr P) as [<- Vr].
      apply bind_ext. intros x E. apply bind_ext. intros y E'. apply cmp2; auto using ftype_signed, itype_signed. split; [now apply (ieval_fits s i)|auto].
    - now rewrite IH.
    - destruct S, P. rewrite IHa, IHb by auto. reflexivity.
    - destruct S, P. rewrite IHa, IHb by auto. reflexivity.
  Qed.

  Lemma settled_write : forall s x v, settled_store ty s -> settled (ty x) v -> settled_store ty (write s x v).
  Proof. intros s x v M V y. unfold write. destruct (Nat.eqb_spec y x) as [->|]; [exact V|apply M]. Qed.
  Lemma assign_redundant : forall s x op y, settled_store ty s ->
    match y with FracOperand t r => wider t (ty x) /\ settled t r | IntOperand t z => wider t (ty x) /\ in_rep t z = true end ->
    f_assign (denote o) (ty x) op (s x) y = f_assign (denote (no_input o)) (ty x) op (s x) y /\
    (forall r, f_assign (denote o) (ty x) op (s x) y = Ok r -> settled (ty x) r).
  Proof.
    intros s x op y M H. pose proof (M x) as V. pose proof (T x) as W. pose proof (wider_refl _ W) as WR.
    destruct y as [t r|t z]; cbn [f_assign]; destruct H as [Ht Hr].
    - assert (E : conv_raw t (ty x) r = r).
      { destruct Ht as (A & B & C). apply (conv_both t t (ty x) (ty x) r (wider_refl t A) WR C (proj1 Hr)). }
      rewrite E. destruct (arith2 (ty x) (ty x) op (RR (s x) r) W W) as [Q R].
      + split; [exact V|]. now apply (settled_wider t).
      + split; [exact Q|]. intros q Hq. specialize (R q Hq). now rewrite common_self in R.
    - assert (E : conv_int t (ty x) z = z).
      { destruct Ht as (A & B & C). apply (conv_int_both t t (ty x) (ty x) z (wider_refl t A) WR C Hr). }
      rewrite E. destruct (arith2 (ty x) (ty x) op (RI (s x) z) W W) as [Q R].
      + split; [exact V|]. now apply (wide_in t).
      + split; [exact Q|]. intros q Hq. specialize (R q Hq). now rewrite common_self in R.
  Qed.

  Lemma exec_redundant : forall n c s, settled_store ty s -> static_s ty c -> settled_s c ->
    exec (denote o) ty n s c = exec (denote (no_input o)) ty n s c /\
    (forall s', exec (denote o) ty n s c = Some (Ok s') -> settled_store ty s').
  Proof.
    induction n as [|n IH]; intros c s M S P; [split; [reflexivity|discriminate]|].
    destruct c as [|x e|op x e|op x i|a b|b x y|b x]; cbn [exec static_s settled_s] in *.
    - split; [reflexivity|]. intros s' H. injection H as <-. exact M.
    - destruct S as [S L]. destruct (feval_redundant s e M S P) as [<- V]. split; [reflexivity|]. intros s' H. apply some_inj in H.
      destruct (feval (denote o) ty s e) as [v|u]; [|discriminate]. cbn [bind] in H. injection H as <-.
      specialize (V v eq_refl). pose proof (ftype_signed e S) as F. apply settled_write; [exact M|].
      unfold f_convert. destruct (conv_both (ftype ty e) (ftype ty e) (ty x) (ty x) v (wider_refl _ F) (wider_refl _ (T x)) L (proj1 V)) as [E _].
      rewrite E. apply (settled_wider (ftype ty e)); [split; auto|exact V].
    - destruct S as [S L]. destruct (feval_redundant s e M S P) as [<- V].
      assert (X : wider (ftype ty e) (ty x)) by (split; [now apply ftype_signed|auto]). split.
      + f_equal. apply bind_ext. intros v E. now rewrite (proj1 (assign_redundant s x op (FracOperand (ftype ty e) v) M (conj X (V v E)))).
      + intros s' H. apply some_inj in H. destruct (feval (denote o) ty s e) as [v|u]; [|discriminate]. cbn [bind] in H.
        destruct (assign_redundant s x op (FracOperand (ftype ty e) v) M (conj X (V v eq_refl))) as [_ Q].
        destruct (f_assign (denote o) (ty x) op (s x) (FracOperand (ftype ty e) v)) as [r|]; cbn [bind] in H; [|discriminate H].
        injection H as <-. apply settled_write; auto.
    - destruct S as [S L]. assert (X : wider (itype ty i) (ty x)) by (split; [now apply itype_signed|auto]).
      destruct (ieval ty s i) as [z|u] eqn:E; [|split; [reflexivity|discriminate]]. cbn [bind].
      destruct (assign_redundant s x op (IntOperand (itype ty i) z) M (conj X (ieval_fits s i z M S E))) as [<- Q]. split; [reflexivity|].
      intros s' H. apply some_inj in H. destruct (f_assign (denote o) (ty x) op (s x) (IntOperand (itype ty i) z)) as [r|]; cbn [bind] in H; [|discriminate H].
      injection H as <-. apply settled_write; auto.
    - destruct S as [Sa Sb], P as [Pa Pb]. destruct (IH a s M Sa Pa) as [<- Q].
      destruct (exec (denote o) ty n s a) as [[s1|u]|]; try (split; [reflexivity|discriminate]). apply IH; auto.
    - destruct S as (Sb & Sx & Sy), P as (Pb & Px & Py). rewrite <- (beval_redundant s b M Sb Pb).
      destruct (beval (denote o) ty s b) as [v|u]; [|split; [reflexivity|discriminate]]. destruct v; apply IH; auto.
    - destruct S as (Sb & Sx), P as (Pb & Px). rewrite <- (beval_redundant s b M Sb Pb).
      destruct (beval (denote o) ty s b) as [[|]|u]; [| |split; [reflexivity|discriminate]].
      + destruct (IH x s M Sx Px) as [<- Q]. destruct (exec (denote o) ty n s x) as [[s1|u]|]; try (split; [reflexivity|discriminate]).
        apply IH; [now apply Q| |]; cbn; auto.
      + split; [reflexivity|]. intros s' H. injection H as <-. exact M.
  Qed.
End Program.
