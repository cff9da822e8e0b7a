(** Stacks of policies. *)

From Coq Require Import ZArith List Bool Lia.
From Verif Require Import Machine Raw Ops Spec Fraction Fraction_spec Fmath Program Stack_spec.
From Verif Require Import Machine_proofs Value_proofs Ops_proofs Fraction_proofs.
Import ListNotations.
Open Scope Z_scope.

(** ** Reducing twice *)

Definition join (m m' : reduce_mode) : reduce_mode :=
  match m, m' with ignore_signs_mode, ignore_signs_mode => ignore_signs_mode | _, _ => normalize_signs_mode end.

Lemma ignore_again : forall t v r, wf_rep t -> wf_raw t v -> reduce_ignore_signs t v = Ok r -> reduce_ignore_signs t r = Ok r.
Proof.
  intros t v r W V H. destruct (reduce_ignore_spec t v r W V H) as (Wr & R & B).
  destruct R as [[D ->]|(D & g & G & N & E & C & _)].
  - reflexivity.
  - assert (Dr : den r <> 0) by nia. specialize (B D).
    assert (An : Z.abs (num r) <= rmax t) by (rewrite N, Z.abs_mul in B; nia).
    assert (Ad : Z.abs (den r) <= rmax t) by (rewrite E, Z.abs_mul in B; nia).
    destruct Wr as [W1 W2].
    unfold reduce_ignore_signs. destruct (is_undefined r) eqn:U; [apply is_undefined_iff in U; contradiction|].
    unfold std_gcd. rewrite (proj2 (abs_in_rep_iff t _ W) An), (proj2 (abs_in_rep_iff t _ W) Ad). cbn [andb bind]. rewrite C.
    rewrite !m_div_in by (rewrite ?Z.quot_1_r; auto; lia). cbn [bind]. rewrite !Z.quot_1_r. destruct r; reflexivity.
Qed.

Lemma ignore_of_normal : forall t v r, wf_rep t -> wf_raw t v -> reduce_normalize_signs t v = Ok r ->
  reduce_ignore_signs t r = Ok r /\ normalize_signs t r = Ok r.
Proof.
  intros t v r W V H. destruct (reduce_spec t v normalize_signs_mode r W V H) as (Wr & R & B).
  pose proof (reduces_bound _ _ _ R) as [Bn Bd]. pose proof (reduces_canonical _ _ R) as C.
  destruct C as [[Hn Hd]|[P G]].
  - destruct r as [n d]; cbn in Hn, Hd; subst. split; [reflexivity|]. unfold normalize_signs; cbn.
    unfold m_neg. rewrite !arith_in by (destruct Wr; auto). reflexivity.
  - assert (D : den v <> 0) by (rewrite <- (reduces_den_zero _ _ _ R); lia). specialize (B D).
    destruct Wr as [W1 W2]. split.
    + unfold reduce_ignore_signs. destruct (is_undefined r) eqn:U; [apply is_undefined_iff in U; lia|].
      unfold std_gcd. rewrite (proj2 (abs_in_rep_iff t (num r) W) ltac:(lia)), (proj2 (abs_in_rep_iff t (den r) W) ltac:(lia)).
      cbn [andb bind]. rewrite G. rewrite !m_div_in by (rewrite ?Z.quot_1_r; auto; lia). cbn [bind]. rewrite !Z.quot_1_r. destruct r; reflexivity.
    + unfold normalize_signs. destruct (Z.gtb_spec (den r) 0); [reflexivity|lia].
Qed.

Lemma reduce_twice : forall t v m m', wf_rep t -> wf_raw t v ->
  (do r <- reduce t v m'; reduce t r m) = reduce t v (join m m').
Proof.
  intros t v m m' W V. destruct m'; cbn [reduce].
  - destruct (reduce_normalize_signs t v) as [r|u] eqn:E; [|destruct m; cbn [join bind reduce]; now rewrite E].
    cbn [bind]. destruct (ignore_of_normal t v r W V E) as [A B].
    destruct m; cbn [reduce join]; rewrite E; [|exact A]. unfold reduce_normalize_signs. rewrite A. exact B.
  - destruct m; cbn [join reduce].
    + unfold reduce_normalize_signs. destruct (reduce_ignore_signs t v) as [r|u] eqn:E; [|reflexivity]. cbn [bind].
      rewrite (ignore_again t v r W V E). reflexivity.
    + destruct (reduce_ignore_signs t v) as [r|u] eqn:E; [|reflexivity]. cbn [bind]. now apply (ignore_again t v r W V).
Qed.

Lemma reduce_fails : forall t v m m' u, wf_rep t -> wf_raw t v -> reduce t v m = UB u -> reduce t v m' = UB u.
Proof.
  intros t v m m' u W V H.
  assert (I : reduce_ignore_signs t v = UB u).
  { destruct m; cbn [reduce] in H; [|exact H]. unfold reduce_normalize_signs in H.
    destruct (reduce_ignore_signs t v) as [r|w] eqn:E; [|exact H]. exfalso. cbn [bind] in H.
    destruct (reduce_ignore_spec t v r W V E) as (Wr & R & B). pose proof (reduces_bound _ _ _ R).
    pose proof (rmax_big t W).
    destruct (normalize_total t r W Wr) as [x X]; [| |congruence].
    - destruct R as [[D ->]|[D _]]; [cbn; lia|]. specialize (B D). lia.
    - intros Z0. destruct R as [[D ->]|(D & g & G & N & E' & _)]; [reflexivity|]. rewrite Z0 in E'. lia. }
  destruct m'; cbn [reduce]; [|exact I]. unfold reduce_normalize_signs. now rewrite I.
Qed.

Lemma reduce_args_twice : forall t a m m', wf_rep t -> wf_args t a ->
  (do b <- reduce_args t a m'; reduce_args t b m) = reduce_args t a (join m m').
Proof.
  intros t a m m' W A. destruct a as [l r|l z|z r]; cbn [reduce_args]; destruct A as [A1 A2].
  - rewrite <- (reduce_twice t l m m' W A1), <- (reduce_twice t r m m' W A2).
    destruct (reduce t l m') as [l'|u] eqn:El; cbn [bind]; [|reflexivity].
    destruct (reduce t r m') as [r'|u] eqn:Er; cbn [bind reduce_args].
    + reflexivity.
    + destruct (reduce t l' m) as [l2|u'] eqn:El2; cbn [bind]; [reflexivity|].
      exfalso. assert (H := reduce_twice t l m m' W A1). rewrite El in H. cbn [bind] in H. rewrite El2 in H. symmetry in H.
      apply (reduce_fails t l (join m m') m' u' W A1) in H. congruence.
  - rewrite <- (reduce_twice t l m m' W A1). destruct (reduce t l m') as [l'|u]; cbn [bind reduce_args]; reflexivity.
  - rewrite <- (reduce_twice t r m m' W A2). destruct (reduce t r m') as [r'|u]; cbn [bind reduce_args]; reflexivity.
Qed.

(** ** Collapsing a stack *)

Definition push (m : reduce_mode) (l : layer) : layer :=
  match m, l with normalize_signs_mode, _ => Normalising | _, Normalising => Normalising | _, _ => Keeping end.
Lemma effect_cons : forall m ms, effect (m :: ms) = push m (effect ms).
Proof.
  intros m ms. unfold effect. cbn [existsb]. destruct m; cbn [orb push]; [reflexivity|].
  destruct (existsb _ ms); [reflexivity|]. destruct ms; reflexivity.
Qed.

Definition layer_args (t : rep) (a : args) (l : layer) : res args :=
  match l with Absent => Ok a | Keeping => reduce_args t a ignore_signs_mode | Normalising => reduce_args t a normalize_signs_mode end.
Definition layer_raw (t : rep) (v : raw) (l : layer) : res raw :=
  match l with Absent => Ok v | Keeping => reduce t v ignore_signs_mode | Normalising => reduce t v normalize_signs_mode end.

Lemma push_args : forall t a m l, wf_rep t -> wf_args t a ->
  (do b <- reduce_args t a m; layer_args t b l) = layer_args t a (push m l).
Proof.
  intros t a m l W A. destruct l; cbn [layer_args].
  - destruct m; cbn [push layer_args]; destruct (reduce_args t a _); reflexivity.
  - rewrite reduce_args_twice by auto. destruct m; reflexivity.
  - rewrite reduce_args_twice by auto. destruct m; reflexivity.
Qed.
Lemma push_raw : forall t v m l, wf_rep t -> wf_raw t v ->
  (do r <- reduce t v m; layer_raw t r l) = layer_raw t v (push m l).
Proof.
  intros t v m l W A. destruct l; cbn [layer_raw].
  - destruct m; cbn [push layer_raw]; destruct (reduce t v _); reflexivity.
  - rewrite reduce_twice by auto. destruct m; reflexivity.
  - rewrite reduce_twice by auto. destruct m; reflexivity.
Qed.
Lemma raw_push : forall t v m l, wf_rep t -> wf_raw t v ->
  (do r <- layer_raw t v l; reduce t r m) = layer_raw t v (push m l).
Proof.
  intros t v m l W A. destruct l; cbn [layer_raw].
  - cbn [bind]. destruct m; reflexivity.
  - rewrite reduce_twice by auto. destruct m; reflexivity.
  - rewrite reduce_twice by auto. destruct m; reflexivity.
Qed.

Lemma bind_assoc : forall A B C (x : res A) (f : A -> res B) (g : B -> res C),
  (do b <- (do a <- x; f a); g b) = (do a <- x; do b <- f a; g b).
Proof. intros A B C x f g. destruct x; reflexivity. Qed.
Lemma bind_ext : forall A B (x : res A) (f g : A -> res B), (forall a, x = Ok a -> f a = g a) -> (do a <- x; f a) = (do a <- x; g a).
Proof. intros A B x f g H. destruct x; cbn; auto. Qed.

Lemma layer_args_wf : forall t a l b, wf_rep t -> wf_args t a -> layer_args t a l = Ok b -> wf_args t b.
Proof.
  intros t a l b W A H. destruct l; cbn [layer_args layer_raw] in H; [injection H as <-; exact A| |]; exact (proj1 (reduce_args_spec t a _ b W A H)).
Qed.
Lemma layer_raw_wf : forall t v l r, wf_rep t -> wf_raw t v -> layer_raw t v l = Ok r -> wf_raw t r.
Proof.
  intros t a l b W A H. destruct l; cbn [layer_args layer_raw] in H; [injection H as <-; exact A| |]; exact (proj1 (reduce_spec t a _ b W A H)).
Qed.

Lemma arith_shape : forall o t op a, wf_rep t -> wf_args t a ->
  p_arith (denote o) t op a =
  (do b <- layer_args t a (effect (input_modes o));
   do r <- p_arith (denote (bottom o)) t op b;
   layer_raw t r (effect (output_modes o))).
Proof.
  induction o as [| |o IH m|o IH m]; intros t op a W A; cbn [denote bottom input_modes output_modes].
  - cbn [effect existsb layer_args layer_raw bind]. destruct (p_arith safe t op a); reflexivity.
  - cbn [effect existsb layer_args layer_raw bind]. destruct (p_arith fast t op a); reflexivity.
  - rewrite ri_arith_eq, effect_cons, <- push_args by auto. rewrite bind_assoc. apply bind_ext. intros b E.
    apply IH; [auto|]. now apply (reduce_args_spec t a m b W A).
  - rewrite ro_arith_eq, IH, effect_cons by auto. rewrite bind_assoc. apply bind_ext. intros b E.
    rewrite bind_assoc. apply bind_ext. intros r E'. apply raw_push; [auto|].
    apply (arith_wf (bottom o) t op b r W); [|exact E']. eapply layer_args_wf; eauto.
Qed.
Lemma cmp_shape : forall o t op a, wf_rep t -> wf_args t a ->
  p_cmp (denote o) t op a = (do b <- layer_args t a (effect (input_modes o)); p_cmp (denote (bottom o)) t op b).
Proof.
  induction o as [| |o IH m|o IH m]; intros t op a W A; cbn [denote bottom input_modes output_modes].
  - reflexivity.
  - reflexivity.
  - rewrite ri_cmp_eq, effect_cons, <- push_args by auto. rewrite bind_assoc. apply bind_ext. intros b E.
    apply IH; [auto|]. now apply (reduce_args_spec t a m b W A).
  - rewrite ro_cmp_eq. now apply IH.
Qed.
(** reduced_input's negate normalises whatever the mode. *)
Definition negate_layer (l : layer) : layer := match l with Absent => Absent | _ => Normalising end.
Lemma push_negate : forall m l, negate_layer (push m l) = push normalize_signs_mode (negate_layer l).
Proof. intros m l. destruct m, l; reflexivity. Qed.
Lemma negate_shape : forall o t v, wf_rep t -> wf_raw t v ->
  p_negate (denote o) t v =
  (do b <- layer_raw t v (negate_layer (effect (input_modes o)));
   do r <- p_negate (denote (bottom o)) t b;
   layer_raw t r (effect (output_modes o))).
Proof.
  induction o as [| |o IH m|o IH m]; intros t v W A; cbn [denote bottom input_modes output_modes].
  - cbn [effect existsb negate_layer layer_raw bind]. destruct (p_negate safe t v); reflexivity.
  - cbn [effect existsb negate_layer layer_raw bind]. destruct (p_negate fast t v); reflexivity.
  - change (p_negate (reduced_input (denote o) m) t v) with (do x <- reduce t v normalize_signs_mode; p_negate (denote o) t x).
    rewrite effect_cons, push_negate, <- push_raw by auto. rewrite bind_assoc. apply bind_ext. intros b E.
    apply IH; [auto|]. exact (proj1 (reduce_spec t v normalize_signs_mode b W A E)).
  - change (p_negate (reduced_output (denote o) m) t v) with (do x <- p_negate (denote o) t v; reduce t x m).
    rewrite IH, effect_cons by auto. rewrite bind_assoc. apply bind_ext. intros b E.
    rewrite bind_assoc. apply bind_ext. intros r E'. apply raw_push; [auto|].
    apply (negate_wf (bottom o) t b r W); [|exact E']. eapply layer_raw_wf; eauto.
Qed.

Lemma bottom_base : forall o, bottom o = Safe \/ bottom o = Fast.
Proof. induction o; cbn; auto. Qed.
Lemma effect_nil : effect [] = Absent. Proof. reflexivity. Qed.
Lemma collapsed_parts : forall o, bottom (collapsed o) = bottom o /\
  effect (input_modes (collapsed o)) = effect (input_modes o) /\ effect (output_modes (collapsed o)) = effect (output_modes o).
Proof.
  intros o. unfold collapsed. destruct (bottom_base o) as [-> | ->]; destruct (effect (input_modes o)), (effect (output_modes o)); repeat split; reflexivity.
Qed.

Lemma same_shape : forall o o', bottom o = bottom o' -> effect (input_modes o) = effect (input_modes o') ->
  effect (output_modes o) = effect (output_modes o') -> same_policy o o'.
Proof.
  intros o o' B I U t W. split; [|split].
  - intros op a A. rewrite !arith_shape by auto. now rewrite B, I, U.
  - intros op a A. rewrite !cmp_shape by auto. now rewrite B, I.
  - intros v V. rewrite !negate_shape by auto. now rewrite B, I, U.
Qed.
Lemma collapse : forall o, same_policy o (collapsed o).
Proof. intros o. destruct (collapsed_parts o) as (A & B & C). now apply same_shape. Qed.

(** ** Programs *)

Section Same.
  Variables o o' : ops.
  Hypothesis SP : same_policy o o'.
  Variable ty : nat -> rep.

  Lemma itype_wf : forall s i, plain_store ty s -> plain_i i -> wf_rep (itype ty i).
  Proof. intros s [t z|x|x|x] S P; cbn in *; try apply (S x). apply P. Qed.
  Lemma ftype_wf : forall s e, plain_store ty s -> plain_f e -> wf_rep (ftype ty e).
  Proof.
    intros s e S. induction e; cbn; intros P; try (apply IHe; exact P).
    - apply (S x).
    - apply P.
    - now apply (itype_wf s).
    - apply common_wf. left. now apply IHe1.
    - apply common_wf. left. now apply IHe.
    - apply common_wf. right. now apply IHe.
  Qed.

  Lemma ieval_in : forall s i z, plain_store ty s -> plain_i i -> ieval ty s i = Ok z -> in_rep (itype ty i) z = true.
  Proof.
    intros s [t z'|x|x|x] z S P H; cbn in *.
    - injection H as <-. apply P.
    - injection H as <-. apply (S x).
    - injection H as <-. apply (S x).
    - unfold f_trunc in H. apply (m_div_result_in _ _ _ _ (proj1 (S x)) H).
  Qed.

  Lemma plain_args : forall tl tr a, wf_rep tl -> wf_rep tr -> wf_args2 tl tr a ->
    wf_rep (common_rep tl tr) /\ wf_args (common_rep tl tr) (common_args tl tr a).
  Proof.
    intros tl tr a Wl Wr A. assert (W : wf_rep (common_rep tl tr)) by (apply common_wf; auto). split; [exact W|].
    destruct a as [l r|l z|z r]; cbn in A |- *; destruct A; split; auto using conv_raw_wf, conv_int_in.
  Qed.
  Lemma plain_arith : forall tl tr op a, wf_rep tl -> wf_rep tr -> wf_args2 tl tr a ->
    f_arith (denote o) tl tr op a = f_arith (denote o') tl tr op a /\
    (forall r, f_arith (denote o) tl tr op a = Ok r -> wf_raw (common_rep tl tr) r).
  Proof.
    intros tl tr op a Wl Wr A. destruct (plain_args tl tr a Wl Wr A) as [W A']. unfold f_arith. split.
    - now apply (SP (common_rep tl tr) W).
    - intros r. now apply arith_wf.
  Qed.
  Lemma plain_cmp : forall tl tr op a, wf_rep tl -> wf_rep tr -> wf_args2 tl tr a ->
    f_cmp (denote o) tl tr op a = f_cmp (denote o') tl tr op a.
  Proof.
    intros tl tr op a Wl Wr A. destruct (plain_args tl tr a Wl Wr A) as [W A']. unfold f_cmp.
    now apply (SP (common_rep tl tr) W).
  Qed.

  Lemma feval_same : forall s e, plain_store ty s -> plain_f e ->
    feval (denote o) ty s e = feval (denote o') ty s e /\ (forall r, feval (denote o) ty s e = Ok r -> wf_raw (ftype ty e) r).
  Proof.
    intros s e S. induction e as [x|t r|i|e IH|e IH|e IH|e IH|op l IHl r IHr|op l IH i|op i r IH]; cbn [feval ftype plain_f]; intros P.
    - split; [reflexivity|]. intros r H. injection H as <-. apply (S x).
    - split; [reflexivity|]. intros r' H. injection H as <-. apply P.
    - split; [reflexivity|]. intros r H. inv_bind H. injection H as <-.
      split; cbn; [now apply (ieval_in s i)|]. apply in_rep_iff. pose proof (itype_wf s i S P) as W.
      pose proof (rmax_big _ W). unfold rmin. destruct (rsigned (itype ty i)); [|lia].
      assert (0 < 2 ^ (rbits (itype ty i) - 1)) by (apply Z.pow_pos_nonneg; unfold wf_rep in W; lia). lia.
    - destruct (IH P) as [<- V]. split; [reflexivity|]. intros r H. inv_bind H. injection H as <-. now apply V.
    - destruct (IH P) as [<- V]. pose proof (ftype_wf s e S P) as W. split.
      + apply bind_ext. intros v E. apply (SP _ W). now apply V.
      + intros r H. inv_bind H. apply (negate_wf o _ a r W); auto.
    - destruct (IH P) as [<- V]. pose proof (ftype_wf s e S P) as W. split.
      + apply bind_ext. intros v E. unfold f_abs. destruct (is_non_negative v); [reflexivity|]. apply (SP _ W). now apply V.
      + intros r H. inv_bind H. unfold f_abs in H. destruct (is_non_negative a); [injection H as <-; auto|]. apply (negate_wf o _ a r W); auto.
    - destruct (IH P) as [<- V]. pose proof (ftype_wf s e S P) as W. split; [reflexivity|].
      intros r H. inv_bind H. exact (proj1 (reduce_spec _ _ _ _ W (V _ eq_refl) H)).
    - destruct P as [Pl Pr]. destruct (IHl Pl) as [<- Vl], (IHr Pr) as [<- Vr].
      pose proof (ftype_wf s l S Pl) as Wl. pose proof (ftype_wf s r S Pr) as Wr. split.
      + apply bind_ext. intros x E. apply bind_ext. intros y E'. apply plain_arith; auto. split; auto.
      + intros q H. inv_bind H. apply (proj2 (plain_arith _ _ op (RR a a0) Wl Wr ltac:(split; auto)) q H).
    - destruct P as [Pl Pi]. destruct (IH Pl) as [<- Vl].
      pose proof (ftype_wf s l S Pl) as Wl. pose proof (itype_wf s i S Pi) as Wi. split.
      + apply bind_ext. intros x E. apply bind_ext. intros y E'. apply plain_arith; auto. split; [auto|]. now apply (ieval_in s i).
      + intros q H. inv_bind H. apply (proj2 (plain_arith _ _ op (RI a a0) Wl Wi ltac:(split; [auto|now apply (ieval_in s i)])) q H).
    - destruct P as [Pi Pr]. destruct (IH Pr) as [<- Vr].
      pose proof (ftype_wf s r S Pr) as Wr. pose proof (itype_wf s i S Pi) as Wi. split.
      + apply bind_ext. intros x E. apply bind_ext. intros y E'. apply plain_arith; auto. split; [now apply (ieval_in s i)|auto].
      + intros q H. inv_bind H. apply (proj2 (plain_arith _ _ op (IR a a0) Wi Wr ltac:(split; [now apply (ieval_in s i)|auto])) q H).
  Qed.

  Lemma beval_same : forall s b, plain_store ty s -> plain_b b -> beval (denote o) ty s b = beval (denote o') ty s b.
  Proof.
    intros s b S. induction b as [op l r|op l i|op i r|b IH|a IHa b IHb|a IHa b IHb]; cbn [beval plain_b]; intros P.
    - destruct P as [Pl Pr]. destruct (feval_same s l S Pl) as [<- Vl], (feval_same s r S Pr) as [<- Vr].
      pose proof (ftype_wf s l S Pl) as Wl. pose proof (ftype_wf s r S Pr) as Wr.
      apply bind_ext. intros x E. apply bind_ext. intros y E'. apply plain_cmp; auto. split; auto.
    - destruct P as [Pl Pi]. destruct (feval_same s l S Pl) as [<- Vl].
      pose proof (ftype_wf s l S Pl) as Wl. pose proof (itype_wf s i S Pi) as Wi.
      apply bind_ext. intros x E. apply bind_ext. intros y E'. apply plain_cmp; auto. split; [auto|]. now apply (ieval_in s i).
    - destruct P as [Pi Pr]. destruct (feval_same s r S Pr) as [<- Vr].
      pose proof (ftype_wf s r S Pr) as Wr. pose proof (itype_wf s i S Pi) as Wi.
      apply bind_ext. intros x E. apply bind_ext. intros y E'. apply plain_cmp; auto. split; [now apply (ieval_in s i)|auto].
    - now rewrite IH.
    - destruct P. rewrite IHa, IHb by auto. reflexivity.
    - destruct P. rewrite IHa, IHb by auto. reflexivity.
  Qed.

  Lemma plain_write : forall s x v, plain_store ty s -> wf_raw (ty x) v -> plain_store ty (write s x v).
  Proof.
    intros s x v S V y. unfold write. destruct (Nat.eqb_spec y x) as [->|]; [|apply S]. split; [apply (S x)|exact V].
  Qed.
  Lemma assign_same : forall s x op y, plain_store ty s ->
    match y with FracOperand t r => wf_rep t /\ wf_raw t r | IntOperand t z => in_rep t z = true end ->
    f_assign (denote o) (ty x) op (s x) y = f_assign (denote o') (ty x) op (s x) y /\
    (forall r, f_assign (denote o) (ty x) op (s x) y = Ok r -> wf_raw (ty x) r).
  Proof.
    intros s x op y S H. destruct (S x) as [W V].
    destruct y as [t r|t z]; cbn [f_assign].
    - destruct (plain_arith (ty x) (ty x) op (RR (s x) (conv_raw t (ty x) r)) W W) as [E Q].
      + split; [exact V|]. apply conv_raw_wf; tauto.
      + split; [exact E|]. intros q Hq. specialize (Q q Hq). now rewrite common_self in Q.
    - destruct (plain_arith (ty x) (ty x) op (RI (s x) (conv_int t (ty x) z)) W W) as [E Q].
      + split; [exact V|]. apply conv_int_in; tauto.
      + split; [exact E|]. intros q Hq. specialize (Q q Hq). now rewrite common_self in Q.
  Qed.

  Lemma exec_same : forall n c s, plain_store ty s -> plain_s c ->
    exec (denote o) ty n s c = exec (denote o') ty n s c /\
    (forall s', exec (denote o) ty n s c = Some (Ok s') -> plain_store ty s').
  Proof.
    induction n as [|n IH]; intros c s S P; [split; [reflexivity|discriminate]|].
    destruct c as [|x e|op x e|op x i|a b|b x y|b x]; cbn [exec plain_s] in *.
    - split; [reflexivity|]. intros s' H. injection H as <-. exact S.
    - destruct (feval_same s e S P) as [<- V]. split; [reflexivity|]. intros s' H. injection H as H. inv_bind H. injection H as <-.
      apply plain_write; [exact S|]. apply conv_raw_wf; [apply (S x)|now apply V].
    - destruct (feval_same s e S P) as [<- V]. pose proof (ftype_wf s e S P) as W. split.
      + f_equal. apply bind_ext. intros v E. now rewrite (proj1 (assign_same s x op (FracOperand (ftype ty e) v) S (conj W (V v E)))).
      + intros s' H. injection H as H. inv_bind H. injection H as <-. apply plain_write; [exact S|].
        exact (proj2 (assign_same s x op (FracOperand (ftype ty e) a) S (conj W (V a eq_refl))) _ E0).
    - split.
      + f_equal. apply bind_ext. intros v E. now rewrite (proj1 (assign_same s x op (IntOperand (itype ty i) v) S (ieval_in s i v S P E))).
      + intros s' H. injection H as H. inv_bind H. injection H as <-. apply plain_write; [exact S|].
        exact (proj2 (assign_same s x op (IntOperand (itype ty i) a) S (ieval_in s i a S P E)) _ E0).
    - destruct P as [Pa Pb]. destruct (IH a s S Pa) as [<- Q].
      destruct (exec (denote o) ty n s a) as [[s1|u]|]; try (split; [reflexivity|discriminate]). apply IH; auto.
    - destruct P as (Pb & Px & Py). rewrite <- (beval_same s b S Pb). destruct (beval (denote o) ty s b) as [v|u]; [|split; [reflexivity|discriminate]].
      destruct v; apply IH; auto.
    - destruct P as (Pb & Px). rewrite <- (beval_same s b S Pb). destruct (beval (denote o) ty s b) as [[|]|u]; [| |split; [reflexivity|discriminate]].
      + destruct (IH x s S Px) as [<- Q]. destruct (exec (denote o) ty n s x) as [[s1|u]|]; try (split; [reflexivity|discriminate]).
        apply IH; [now apply Q|]. cbn. auto.
      + split; [reflexivity|]. intros s' H. injection H as <-. exact S.
  Qed.
End Same.

(** ** Telling the eighteen apart *)

Definition seen_arith (o : ops) (op : arith_op) (a : args) : res raw := p_arith (denote o) int32 op a.
Definition seen_bottom (o : ops) : ops :=
  match seen_arith o Plus (RR (mkRaw 1 65536) (mkRaw 1 65536)) with Ok _ => Safe | UB _ => Fast end.
Definition seen_input (o : ops) : layer :=
  match seen_arith o Multiplies (RI (mkRaw (-2147483648) 1) 0), p_cmp (denote o) int32 Lt (RI (mkRaw 1 (-2)) 1) with
  | Ok _, _ => Absent
  | UB _, Ok true => Normalising
  | UB _, _ => Keeping
  end.
Definition seen_output (o : ops) : layer :=
  match seen_arith o Multiplies (RR (mkRaw 2 1) (mkRaw 1 2)), seen_arith o Divides (RR (mkRaw 1 2) (mkRaw (-1) 1)) with
  | Ok r, Ok q => if den r =? 2 then Absent else if den q <? 0 then Keeping else Normalising
  | _, _ => Absent
  end.

Lemma seen_18 : forall b i u, let o := add_input i (add_output u b) in b = Safe \/ b = Fast ->
  seen_bottom o = b /\ seen_input o = i /\ seen_output o = u.
Proof. intros b i u o [-> | ->]; destruct i, u; vm_compute; auto. Qed.

Lemma i32_wf : wf_rep int32. Proof. unfold wf_rep; cbn; lia. Qed.
Definition outcome {A} (x : res A) : option A := match x with Ok a => Some a | UB _ => None end.
Lemma outcome_same : forall A (x y : res A), (forall a, x = Ok a <-> y = Ok a) -> outcome x = outcome y.
Proof.
  intros A x y H. destruct x as [a|u].
  - now rewrite (proj1 (H a) eq_refl).
  - destruct y as [b|w]; [|reflexivity]. discriminate (proj2 (H b) eq_refl).
Qed.
Lemma seen_same : forall o o', indistinguishable o o' ->
  seen_bottom o = seen_bottom o' /\ seen_input o = seen_input o' /\ seen_output o = seen_output o'.
Proof.
  intros o o' H. destruct (H int32 i32_wf) as (A & C & _).
  assert (A' : forall op a, wf_args int32 a -> outcome (seen_arith o op a) = outcome (seen_arith o' op a)) by (intros op a X; apply outcome_same; intros r; exact (A op a r X)).
  pose proof (outcome_same _ _ _ (fun b => C Lt (RI (mkRaw 1 (-2)) 1) b ltac:(split; try split; reflexivity))) as C'.
  pose proof (A' Plus (RR (mkRaw 1 65536) (mkRaw 1 65536)) ltac:(split; split; reflexivity)) as E1.
  pose proof (A' Multiplies (RI (mkRaw (-2147483648) 1) 0) ltac:(split; try split; reflexivity)) as E2.
  pose proof (A' Multiplies (RR (mkRaw 2 1) (mkRaw 1 2)) ltac:(split; split; reflexivity)) as E3.
  pose proof (A' Divides (RR (mkRaw 1 2) (mkRaw (-1) 1)) ltac:(split; split; reflexivity)) as E4.
  unfold seen_bottom, seen_input, seen_output.
  split; [|split].
  - clear E2 E3 E4 C'. destruct (seen_arith o _ _), (seen_arith o' _ _); try discriminate; reflexivity.
  - clear E1 E3 E4. destruct (seen_arith o _ _), (seen_arith o' _ _); try discriminate; try reflexivity.
    destruct (p_cmp (denote o) _ _ _), (p_cmp (denote o') _ _ _); try discriminate; try reflexivity. cbn in C'. now injection C' as ->.
  - clear E1 E2 C'. destruct (seen_arith o Multiplies _), (seen_arith o' Multiplies _); try discriminate; try reflexivity. cbn in E3. injection E3 as ->.
    destruct (seen_arith o Divides _), (seen_arith o' Divides _); try discriminate; try reflexivity. cbn in E4. now injection E4 as ->.
Qed.
Lemma same_indistinguishable : forall o o', same_policy o o' -> indistinguishable o o'.
Proof.
  intros o o' H t W. destruct (H t W) as (A & B & C). split; [|split].
  - intros op a r X. now rewrite A.
  - intros op a r X. now rewrite B.
  - intros v r X. now rewrite C.
Qed.
Lemma policy_iff : forall o o', indistinguishable o o' <->
  bottom o = bottom o' /\ effect (input_modes o) = effect (input_modes o') /\ effect (output_modes o) = effect (output_modes o').
Proof.
  intros o o'. split; [|intros (A & B & C); now apply same_indistinguishable, same_shape].
  intros H. assert (H' : indistinguishable (collapsed o) (collapsed o')).
  { intros t W. destruct (H t W) as (A & B & C), (collapse o t W) as (A1 & B1 & C1), (collapse o' t W) as (A2 & B2 & C2). split; [|split].
    - intros op a r X. rewrite <- A1, <- A2 by auto. auto.
    - intros op a r X. rewrite <- B1, <- B2 by auto. auto.
    - intros v r X. rewrite <- C1, <- C2 by auto. auto. }
  apply seen_same in H' as (A & B & C). unfold collapsed in A, B, C.
  destruct (seen_18 (bottom o) (effect (input_modes o)) (effect (output_modes o)) (bottom_base o)) as (A1 & B1 & C1).
  destruct (seen_18 (bottom o') (effect (input_modes o')) (effect (output_modes o')) (bottom_base o')) as (A2 & B2 & C2).
  rewrite A1, A2 in A. rewrite B1, B2 in B. rewrite C1, C2 in C. auto.
Qed.
