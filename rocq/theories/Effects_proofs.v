(** Proofs for C116. *)

From Coq Require Import ZArith Bool Lia.
From Verif Require Import Machine Raw Ops Fraction Fmath Program Effects Effects_spec.
Open Scope Z_scope.

(** A reference evaluation, operands from left to right; ill-typed calls are undefined. *)
Definition then_ (c : config) (f : store -> term -> config) : config :=
  match c with Run s e => f s e | Undefined => Undefined end.
Definition run_call (p : policy) (ty : nat -> rep) (s : store) (e : term) : config :=
  match call p ty s e with Some c => c | None => Undefined end.
Fixpoint ev (p : policy) (ty : nat -> rep) (s : store) (e : term) : config :=
  match e with
  | One f a => then_ (ev p ty s a) (fun s v => run_call p ty s (One f v))
  | Bin op l r => then_ (ev p ty s l) (fun s v => then_ (ev p ty s r) (fun s w => run_call p ty s (Bin op v w)))
  | Set_ o l a => then_ (ev p ty s a) (fun s v => then_ (ev p ty s l) (fun s w => run_call p ty s (Set_ o w v)))
  | _ => Run s e
  end.

Lemma ev_value : forall p ty s e, is_value e = true -> ev p ty s e = Run s e.
Proof. intros p ty s e H. destruct e; try discriminate; reflexivity. Qed.

Lemma same_refl : forall c, same_config c c.
Proof. destruct c; simpl; auto. Qed.
Lemma same_sym : forall c d, same_config c d -> same_config d c.
Proof. destruct c, d; simpl; intuition. Qed.
Lemma same_trans : forall c d e, same_config c d -> same_config d e -> same_config c e.
Proof.
  intros [s e|] [s' e'|] [s'' e''|]; simpl; intros A B; try contradiction; auto.
  destruct A as [A A'], B as [B B']. split; [congruence|]. intros x. now rewrite A'.
Qed.

(** Shape of the result of a call. *)
Lemma call_result : forall p ty s e s' v, call p ty s e = Some (Run s' v) ->
  is_value v = true /\ (forall x, refers v x -> refers e x) /\ (forall x, ~ writes e x -> s' x = s x).
Proof.
  intros p ty s e s' v H. destruct e; try discriminate; cbn [call] in H.
  - assert (G : s' = s /\ is_value v = true /\ (forall x, refers v x -> refers (One f e) x)).
    { unfold call1, temporary in H.
      destruct f, e; cbn [load] in H; try discriminate;
      repeat match type of H with context [match ?r with Ok _ => _ | UB _ => _ end] => destruct r; try discriminate end;
      inversion H; subst; cbn; repeat split; auto; intros x F; try contradiction; auto. }
    destruct G as (-> & G1 & G2). auto.
  - assert (G : s' = s /\ exists t w, v = Tmp t w).
    { unfold call2, temporary in H.
      repeat match type of H with context [match ?r with _ => _ end] => destruct r; try discriminate end;
      inversion H; subst; eauto. }
    destruct G as (-> & t & w & ->). cbn. repeat split; auto.
  - unfold call_set, assigned in H. destruct e1; try discriminate.
    assert (G : exists w, Run (write s x w) (Var x) = Run s' v).
    { repeat match type of H with context [match ?r with _ => _ end] => destruct r; try discriminate end; inversion H; eauto. }
    destruct G as [w G]. inversion G; subst. cbn. repeat split; auto.
    intros y N. unfold write. destruct (Nat.eqb_spec y x); auto. subst. tauto.
Qed.

(** What a call reads. *)
Definition agree (P : nat -> Prop) (s s' : store) : Prop := forall x, P x -> s x = s' x.

Lemma load_agree : forall ty s s' e, agree (refers e) s s' -> load ty s e = load ty s' e.
Proof. intros ty s s' e A. destruct e; cbn; auto; now rewrite (A x eq_refl). Qed.


Lemma refers_dec : forall e x, {refers e x} + {~ refers e x}.
Proof.
  induction e as [y|t v|d y|t z|f e IH|op l IHl r IHr|o l IHl e IHe]; intros x; cbn; auto using Nat.eq_dec.
  destruct f; auto.
Qed.
Lemma refers_unique : forall e x y, refers e x -> refers e y -> x = y.
Proof.
  induction e as [z|t v|d z|t z|f e IH|op l IHl r IHr|o l IHl e IHe]; intros x y; cbn; try contradiction; try congruence; auto.
  destruct f; try contradiction; auto.
Qed.
Lemma writes_dec : forall e x, {writes e x} + {~ writes e x}.
Proof.
  induction e as [y|t v|d y|t z|f e IH|op l IHl r IHr|o l IHl e IHe]; intros x; cbn; auto.
  - destruct (IHl x), (IHr x); tauto.
  - destruct (IHl x), (IHe x), (refers_dec l x); tauto.
Qed.

(** Two evaluations of the same expression: what was written is equal, the rest
    unchanged. *)
Definition framed (e : term) (s1 s2 : store) (c d : config) : Prop :=
  match c, d with
  | Run s1' v, Run s2' v' =>
      v = v' /\ is_value v = true /\ (forall x, refers v x -> refers e x) /\
      (forall x, writes e x -> s1' x = s2' x) /\ (forall x, ~ writes e x -> s1' x = s1 x /\ s2' x = s2 x)
  | Undefined, Undefined => True
  | _, _ => False
  end.

Lemma framed_keeps : forall e s1 s2 s1' s2' v v' x,
  framed e s1 s2 (Run s1' v) (Run s2' v') -> s1 x = s2 x -> s1' x = s2' x.
Proof.
  intros e s1 s2 s1' s2' v v' x (_ & _ & _ & W & N) E. destruct (writes_dec e x); auto.
  destruct (N x n) as [A B]. congruence.
Qed.

(** A call on two stores that agree on what it reads. *)
Lemma call_frame : forall p ty s1 s2 e,
  (match e with One _ a => is_value a = true | Bin _ l r => is_value l = true /\ is_value r = true
   | Set_ _ l a => is_value l = true /\ is_value a = true | _ => False end) ->
  agree (reads e) s1 s2 -> framed e s1 s2 (run_call p ty s1 e) (run_call p ty s2 e).
Proof.
  intros p ty s1 s2 e V A. unfold run_call.
  assert (R : forall s v, call p ty s e = Some (Run s v) -> is_value v = true /\ (forall x, refers v x -> refers e x)).
  { intros s v H. destruct (call_result _ _ _ _ _ _ H) as (B & C & _). auto. }
  destruct e; try contradiction; cbn [call] in *.
  - assert (G : (call1 p ty s1 f e = None /\ call1 p ty s2 f e = None) \/
                (call1 p ty s1 f e = Some Undefined /\ call1 p ty s2 f e = Some Undefined) \/
                (exists v, call1 p ty s1 f e = Some (Run s1 v) /\ call1 p ty s2 f e = Some (Run s2 v))).
    { unfold call1, temporary.
      assert (L : f = FNum \/ f = FDen \/ load ty s1 e = load ty s2 e).
      { destruct f; auto; right; right; apply load_agree; intros x X; apply A; cbn; auto. }
      destruct L as [->|[->|L]].
      - destruct e; cbn in *; try discriminate; auto; right; right; eauto.
      - destruct e; cbn in *; try discriminate; auto; right; right; eauto.
      - rewrite <- L. destruct f, e; cbn [load] in *; try discriminate;
        repeat match goal with |- context [match ?r with Ok _ => _ | UB _ => _ end] => destruct r end;
        first [left; split; reflexivity | right; left; split; reflexivity | right; right; eexists; split; reflexivity]. }
    destruct G as [(-> & ->)|[(-> & ->)|(v & E1 & E2)]]; try exact I. rewrite E1, E2.
    destruct (R s1 v E1) as [B C]. cbn. repeat split; auto.
    intros x W. exfalso. destruct e; try discriminate V; exact W.
  - assert (L1 : load ty s1 e1 = load ty s2 e1) by (apply load_agree; intros x X; apply A; cbn; auto).
    assert (L2 : load ty s1 e2 = load ty s2 e2) by (apply load_agree; intros x X; apply A; cbn; auto).
    assert (G : (call2 p ty s1 op e1 e2 = None /\ call2 p ty s2 op e1 e2 = None) \/
                (call2 p ty s1 op e1 e2 = Some Undefined /\ call2 p ty s2 op e1 e2 = Some Undefined) \/
                (exists v, call2 p ty s1 op e1 e2 = Some (Run s1 v) /\ call2 p ty s2 op e1 e2 = Some (Run s2 v))).
    { unfold call2, temporary. rewrite <- L1, <- L2.
      repeat match goal with |- context [match ?r with _ => _ end] => destruct r end;
      first [left; split; reflexivity | right; left; split; reflexivity | right; right; eexists; split; reflexivity]. }
    destruct G as [(-> & ->)|[(-> & ->)|(v & E1 & E2)]]; try exact I. rewrite E1, E2.
    destruct (R s1 v E1) as [B C]. cbn. repeat split; auto.
    intros x [W|W]; exfalso; destruct V as [V1 V2]; [destruct e1; try discriminate V1; exact W|destruct e2; try discriminate V2; exact W].
  - assert (L : load ty s1 e2 = load ty s2 e2) by (apply load_agree; intros x X; apply A; cbn; auto).
    assert (G : (call_set p ty s1 o e1 e2 = None /\ call_set p ty s2 o e1 e2 = None) \/
                (call_set p ty s1 o e1 e2 = Some Undefined /\ call_set p ty s2 o e1 e2 = Some Undefined) \/
                (exists x w, e1 = Var x /\ call_set p ty s1 o e1 e2 = Some (Run (write s1 x w) (Var x)) /\
                             call_set p ty s2 o e1 e2 = Some (Run (write s2 x w) (Var x)))).
    { unfold call_set, assigned. rewrite <- L. destruct e1; auto.
      assert (X : o = None \/ s1 x = s2 x).
      { destruct o; auto. right. apply A. cbn. right. right. right. split; [discriminate|reflexivity]. }
      destruct X as [->|X]; [|rewrite <- X];
      repeat match goal with |- context [match ?r with _ => _ end] => destruct r end;
      first [left; split; reflexivity | right; left; split; reflexivity
            |right; right; eexists; eexists; repeat split; reflexivity]. }
    destruct G as [(-> & ->)|[(-> & ->)|(x & w & -> & E1 & E2)]]; try exact I. rewrite E1, E2. cbn.
    repeat split; auto.
    + intros y [W|[W|W]]; try contradiction; [destruct V as [_ V]; destruct e2; try discriminate; contradiction|].
      subst y. unfold write. now rewrite Nat.eqb_refl.
    + unfold write. destruct (Nat.eqb_spec x0 x); auto. subst. tauto.
    + unfold write. destruct (Nat.eqb_spec x0 x); auto. subst. tauto.
Qed.

Lemma refers_value_reads : forall e x, is_value e = true -> ~ reads e x /\ ~ writes e x.
Proof. intros e x V. destruct e; try discriminate; cbn; tauto. Qed.

Ltac two c1 c2 F s1 v s2 :=
  destruct c1 as [s1 v|]; destruct c2 as [s2 ?|]; try (exfalso; exact F); [|exact I].

Lemma ev_frame : forall p ty e s1 s2, agree (reads e) s1 s2 -> framed e s1 s2 (ev p ty s1 e) (ev p ty s2 e).
Proof.
  intros p ty. induction e as [y|t v|d y|t z|f e IH|op l IHl r IHr|o l IHl e IHe]; intros s1 s2 A;
    try (cbn; repeat split; auto; intros; tauto); cbn [ev].
  - assert (F : framed e s1 s2 (ev p ty s1 e) (ev p ty s2 e)).
    { apply IH. intros x X. apply A. destruct f; cbn; auto. }
    destruct (ev p ty s1 e) as [a v|], (ev p ty s2 e) as [b v'|]; try contradiction; cbn [then_]; auto.
    pose proof (fun x => framed_keeps _ _ _ _ _ _ _ x F) as K. destruct F as (<- & V & Rv & W & N).
    assert (G : framed (One f v) a b (run_call p ty a (One f v)) (run_call p ty b (One f v))).
    { apply call_frame; auto. intros x X. apply K. apply A.
      destruct f; cbn in *; destruct (refers_value_reads v x V); intuition. }
    destruct (run_call p ty a (One f v)) as [a' w|], (run_call p ty b (One f v)) as [b' w'|]; try contradiction; cbn; auto.
    destruct G as (<- & V' & Rw & W' & N'). repeat split; auto.
    + intros x X. apply Rw in X. destruct f; cbn in *; auto.
    + intros x X. destruct (N' x) as [B C]; [cbn; now apply refers_value_reads|]. rewrite B, C. auto.
    + destruct (N' x) as [B C]; [cbn; now apply refers_value_reads|]. rewrite B. now apply N.
    + destruct (N' x) as [B C]; [cbn; now apply refers_value_reads|]. rewrite C. now apply N.
  - assert (F : framed l s1 s2 (ev p ty s1 l) (ev p ty s2 l)) by (apply IHl; intros x X; apply A; cbn; auto).
    destruct (ev p ty s1 l) as [a v|], (ev p ty s2 l) as [b v'|]; try contradiction; cbn [then_]; auto.
    pose proof (fun x => framed_keeps _ _ _ _ _ _ _ x F) as K. destruct F as (<- & V & Rv & W & N).
    assert (F : framed r a b (ev p ty a r) (ev p ty b r)) by (apply IHr; intros x X; apply K, A; cbn; auto).
    destruct (ev p ty a r) as [a2 w|], (ev p ty b r) as [b2 w'|]; try contradiction; cbn [then_]; auto.
    pose proof (fun x => framed_keeps _ _ _ _ _ _ _ x F) as K2. destruct F as (<- & V2 & Rv2 & W2 & N2).
    assert (G : framed (Bin op v w) a2 b2 (run_call p ty a2 (Bin op v w)) (run_call p ty b2 (Bin op v w))).
    { apply call_frame; auto. intros x X. apply K2, K, A. cbn in *.
      destruct (refers_value_reads v x V), (refers_value_reads w x V2). intuition. }
    destruct (run_call p ty a2 (Bin op v w)) as [a' u|], (run_call p ty b2 (Bin op v w)) as [b' u'|]; try contradiction; cbn; auto.
    destruct G as (<- & V' & Rw & W' & N').
    assert (NN : forall x, a' x = a2 x /\ b' x = b2 x).
    { intros x. apply N'. cbn. destruct (refers_value_reads v x V), (refers_value_reads w x V2). tauto. }
    repeat split; auto.
    + intros x X. destruct (NN x) as [-> ->]. destruct (writes_dec r x); auto. apply K2. apply W. tauto.
    + destruct (NN x) as [-> _]. rewrite (proj1 (N2 x ltac:(tauto))). apply N. tauto.
    + destruct (NN x) as [_ ->]. rewrite (proj2 (N2 x ltac:(tauto))). apply N. tauto.
  - assert (F : framed e s1 s2 (ev p ty s1 e) (ev p ty s2 e)) by (apply IHe; intros x X; apply A; cbn; auto).
    destruct (ev p ty s1 e) as [a v|], (ev p ty s2 e) as [b v'|]; try contradiction; cbn [then_]; auto.
    pose proof (fun x => framed_keeps _ _ _ _ _ _ _ x F) as K. destruct F as (<- & V & Rv & W & N).
    assert (F : framed l a b (ev p ty a l) (ev p ty b l)) by (apply IHl; intros x X; apply K, A; cbn; auto).
    destruct (ev p ty a l) as [a2 w|], (ev p ty b l) as [b2 w'|]; try contradiction; cbn [then_]; auto.
    pose proof (fun x => framed_keeps _ _ _ _ _ _ _ x F) as K2. destruct F as (<- & V2 & Rv2 & W2 & N2).
    assert (G : framed (Set_ o w v) a2 b2 (run_call p ty a2 (Set_ o w v)) (run_call p ty b2 (Set_ o w v))).
    { apply call_frame; auto. intros x X. apply K2, K, A. cbn in *.
      destruct (refers_value_reads v x V), (refers_value_reads w x V2). intuition. }
    destruct (run_call p ty a2 (Set_ o w v)) as [a' u|] eqn:E, (run_call p ty b2 (Set_ o w v)) as [b' u'|]; try contradiction; cbn; auto.
    pose proof (fun x => framed_keeps _ _ _ _ _ _ _ x G) as K3. destruct G as (<- & V' & Rw & W' & N').
    assert (NN : forall x, ~ refers l x -> a' x = a2 x /\ b' x = b2 x).
    { intros x Nx. apply N'. cbn. destruct (refers_value_reads v x V), (refers_value_reads w x V2). intros [Q|[Q|Q]]; try tauto. auto. }
    repeat split; auto.
    + intros x X. apply Rv2. now apply Rw in X.
    + intros x X. destruct (refers_dec w x) as [Q|Q].
      * apply W'. cbn. auto.
      * destruct (N' x) as [-> ->]; [cbn; destruct (refers_value_reads v x V), (refers_value_reads w x V2); tauto|].
        destruct (writes_dec l x); auto. destruct (writes_dec e x); [apply K2; auto|].
        exfalso. destruct X as [X|[X|X]]; auto.
        assert (Y : exists y, w = Var y).
        { unfold run_call, call, call_set in E. destruct w; try discriminate. eauto. }
        destruct Y as [y ->]. apply Q. cbn. apply (refers_unique l); auto. apply Rv2. reflexivity.
    + destruct (NN x ltac:(tauto)) as [-> _]. rewrite (proj1 (N2 x ltac:(tauto))). apply N. tauto.
    + destruct (NN x ltac:(tauto)) as [_ ->]. rewrite (proj2 (N2 x ltac:(tauto))). apply N. tauto.
Qed.

(** Stores with the same contents. *)
Lemma ev_ext : forall p ty e s1 s2, (forall x, s1 x = s2 x) -> same_config (ev p ty s1 e) (ev p ty s2 e).
Proof.
  intros p ty e s1 s2 E. pose proof (ev_frame p ty e s1 s2 (fun x _ => E x)) as F.
  destruct (ev p ty s1 e) as [a v|], (ev p ty s2 e) as [b v'|]; try contradiction; cbn; auto.
  split; [apply F|]. intros x. exact (framed_keeps _ _ _ _ _ _ _ x F (E x)).
Qed.
Lemma ev_run : forall p ty e s s' v, ev p ty s e = Run s' v ->
  is_value v = true /\ (forall x, refers v x -> refers e x) /\ (forall x, ~ writes e x -> s' x = s x).
Proof.
  intros p ty e s s' v E. pose proof (ev_frame p ty e s s (fun x _ => eq_refl)) as F. rewrite E in F.
  destruct F as (_ & A & B & _ & C). repeat split; auto. intros x N. now destruct (C x N).
Qed.
Lemma run_call_ext : forall p ty e s1 s2,
  (match e with One _ a => is_value a = true | Bin _ l r => is_value l = true /\ is_value r = true
   | Set_ _ l a => is_value l = true /\ is_value a = true | _ => False end) ->
  (forall x, s1 x = s2 x) -> same_config (run_call p ty s1 e) (run_call p ty s2 e).
Proof.
  intros p ty e s1 s2 V E. pose proof (call_frame p ty s1 s2 e V (fun x _ => E x)) as F.
  destruct (run_call p ty s1 e) as [a v|], (run_call p ty s2 e) as [b v'|]; try contradiction; cbn; auto.
  split; [apply F|]. intros x. exact (framed_keeps _ _ _ _ _ _ _ x F (E x)).
Qed.

(** The operands of a race-free operator can be evaluated in either order. *)
Lemma ev_commute : forall p ty op l r s, race_free (Bin op l r) ->
  same_config (ev p ty s (Bin op l r))
    (then_ (ev p ty s r) (fun s w => then_ (ev p ty s l) (fun s v => run_call p ty s (Bin op v w)))).
Proof.
  intros p ty op l r s (_ & _ & X). cbn [ev].
  destruct (ev p ty s l) as [sl v|] eqn:El; cbn [then_].
  - destruct (ev_run _ _ _ _ _ _ El) as (Vv & Rv & Nl).
    assert (Fr : framed r sl s (ev p ty sl r) (ev p ty s r)).
    { apply ev_frame. intros x Rx. apply Nl. intros Wx. destruct (X x) as [Y _]. exact (proj1 (Y Wx) Rx). }
    destruct (ev p ty sl r) as [slr w|], (ev p ty s r) as [sr w'|] eqn:Er; try contradiction; cbn [then_]; [|exact I].
    destruct Fr as (<- & Vw & Rw & Wr & Nr).
    assert (Fl : framed l sr s (ev p ty sr l) (ev p ty s l)).
    { apply ev_frame. intros x Rx. apply Nr. intros Wx. destruct (X x) as [_ Y]. exact (Y Wx Rx). }
    rewrite El in Fl. destruct (ev p ty sr l) as [srl v'|]; try contradiction. cbn [then_].
    destruct Fl as (-> & _ & _ & Wl & Nl'). apply run_call_ext; [auto|].
    intros x. destruct (writes_dec l x) as [Y|Y].
    + rewrite (Wl x Y). destruct (X x) as [Z _]. destruct (Z Y) as [_ Z']. exact (proj1 (Nr x Z')).
    + destruct (Nl' x Y) as [-> _]. destruct (writes_dec r x) as [Z|Z]; [now apply Wr|].
      rewrite (proj1 (Nr x Z)), (proj2 (Nr x Z)). now apply Nl.
  - destruct (ev p ty s r) as [sr w|] eqn:Er; cbn [then_]; [|exact I].
    destruct (ev_run _ _ _ _ _ _ Er) as (_ & _ & Nr).
    assert (Fl : framed l sr s (ev p ty sr l) (ev p ty s l)).
    { apply ev_frame. intros x Rx. apply Nr. intros Wx. destruct (X x) as [_ Y]. exact (Y Wx Rx). }
    rewrite El in Fl. destruct (ev p ty sr l); [contradiction|exact I].
Qed.

(** A step removes uses of variables, and one operator. *)
Lemma call_operands : forall p ty s e c, call p ty s e = Some c ->
  match e with One _ a => is_value a = true | Bin _ l r => is_value l = true /\ is_value r = true
  | Set_ _ l a => is_value l = true /\ is_value a = true | _ => False end.
Proof.
  intros p ty s e c H. destruct e; try discriminate; cbn [call] in H.
  - unfold call1 in H. destruct e; auto; destruct f; discriminate.
  - unfold call2 in H. destruct e1; cbn [load] in H; try discriminate; destruct e2; cbn [load] in H; try discriminate; auto.
  - unfold call_set in H. destruct e1; try discriminate. destruct e2; auto; destruct o; discriminate.
Qed.

Definition uses_less (e' e : term) : Prop :=
  (forall x, refers e' x -> refers e x) /\ (forall x, writes e' x -> writes e x) /\
  (forall x, reads e' x -> reads e x) /\ (race_free e -> race_free e') /\ (size e' < size e)%nat.

Lemma step_uses : forall p ty s e c, step p ty s e c -> match c with Run _ e' => uses_less e' e | Undefined => True end.
Proof.
  intros p ty s e c H. induction H as [s e c C|s f e c H IH|s op l r c H IH|s op l r c H IH|s o l e c H IH|s o l e c V H IH].
  - destruct c as [s' v|]; auto. destruct (call_result _ _ _ _ _ _ C) as (V & R & _).
    unfold uses_less; split; [exact R|]; split; [intros x X; destruct (refers_value_reads v x V); tauto|];
    split; [intros x X; destruct (refers_value_reads v x V); tauto|]; split.
    + intros _. destruct v; try discriminate; exact I.
    + apply call_operands in C. destruct e; try contradiction; destruct v; try discriminate; cbn; lia.
  - destruct c as [s' e'|]; cbn [plug]; auto. destruct IH as (A & B & C & D & E). unfold uses_less. split; [|split; [|split; [|split]]].
    + intros x X. destruct f; cbn in *; auto.
    + intros x X. cbn in *. auto.
    + intros x X. destruct f; cbn in *; intuition.
    + exact D.
    + cbn. lia.
  - destruct c as [s' e'|]; cbn [plug]; auto. destruct IH as (A & B & C & D & E). unfold uses_less. cbn. split; [|split; [|split; [|split]]].
    + intros x X. contradiction.
    + intros x X. intuition.
    + intros x X. intuition.
    + intros (Fl & Fr & X). split; [auto|]. split; [auto|]. intros x. destruct (X x) as [Y Z]. split; intros Q; [apply Y, B, Q|intros Q'; exact (Z Q (C x Q'))].
    + lia.
  - destruct c as [s' e'|]; cbn [plug]; auto. destruct IH as (A & B & C & D & E). unfold uses_less. cbn. split; [|split; [|split; [|split]]].
    + intros x X. contradiction.
    + intros x X. intuition.
    + intros x X. intuition.
    + intros (Fl & Fr & X). split; [auto|]. split; [auto|]. intros x. destruct (X x) as [Y Z]. split; intros Q; [destruct (Y Q) as [Y1 Y2]; split; intros Q'; auto|exact (Z (B x Q))].
    + lia.
  - destruct c as [s' e'|]; cbn [plug]; auto. destruct IH as (A & B & C & D & E). unfold uses_less. cbn. split; [|split; [|split; [|split]]].
    + intros x X. auto.
    + intros x X. intuition.
    + intros x X. intuition.
    + intros [Fl Fr]. auto.
    + lia.
  - destruct c as [s' e'|]; cbn [plug]; auto. destruct IH as (A & B & C & D & E). unfold uses_less. cbn. split; [|split; [|split; [|split]]].
    + intros x X. auto.
    + intros x X. intuition.
    + intros x X. intuition.
    + intros [Fl Fr]. auto.
    + lia.
Qed.

Lemma then_same : forall c d f, same_config c d ->
  (forall s1 s2 e, c = Run s1 e -> d = Run s2 e -> (forall x, s1 x = s2 x) -> same_config (f s1 e) (f s2 e)) ->
  same_config (then_ c f) (then_ d f).
Proof.
  intros [s e|] [s' e'|] f E H; cbn in *; try contradiction; auto. destruct E as [-> E]. now apply H.
Qed.

Lemma step_ev : forall p ty s e c, step p ty s e c -> race_free e ->
  same_config (ev p ty s e) (then_ c (ev p ty)).
Proof.
  intros p ty s e c H. induction H as [s e c C|s f e c H IH|s op l r c H IH|s op l r c H IH|s o l e c H IH|s o l e c V H IH]; intros F.
  - pose proof (call_operands _ _ _ _ _ C) as V.
    assert (E : ev p ty s e = c).
    { destruct e; try contradiction; cbn [ev].
      - rewrite ev_value by auto. cbn [then_]. unfold run_call. now rewrite C.
      - destruct V as [V1 V2]. rewrite ev_value by auto. cbn [then_]. rewrite ev_value by auto. cbn [then_]. unfold run_call. now rewrite C.
      - destruct V as [V1 V2]. rewrite ev_value by auto. cbn [then_]. rewrite ev_value by auto. cbn [then_]. unfold run_call. now rewrite C. }
    rewrite E. destruct c as [s' v|]; [|exact I]. cbn [then_].
    rewrite ev_value by (apply (call_result _ _ _ _ _ _ C)). apply same_refl.
  - cbn [ev]. eapply same_trans; [apply then_same; [apply (IH F)|]|].
    + intros s1 s2 v E1 _ E. apply run_call_ext; auto. now apply ev_run in E1.
    + destruct c; [apply same_refl|exact I].
  - cbn [ev]. destruct F as (Fl & Fr & X). eapply same_trans; [apply then_same; [apply (IH Fl)|]|].
    + intros s1 s2 v E1 _ E. apply then_same; [now apply ev_ext|]. intros s3 s4 w E3 _ E'. apply run_call_ext; auto.
      apply ev_run in E1. apply ev_run in E3. tauto.
    + destruct c; [apply same_refl|exact I].
  - eapply same_trans; [apply (ev_commute p ty op l r s F)|].
    pose proof F as (Fl & Fr & X). eapply same_trans; [apply then_same; [apply (IH Fr)|]|].
    + intros s1 s2 v E1 _ E. apply then_same; [now apply ev_ext|]. intros s3 s4 w E3 _ E'. apply run_call_ext; auto.
      apply ev_run in E1. apply ev_run in E3. tauto.
    + pose proof (step_uses _ _ _ _ _ (step_right p ty s op l r c H)) as U. destruct c as [s' r'|]; [|exact I].
      cbn [plug then_]. apply same_sym. apply ev_commute. apply U, F.
  - cbn [ev]. destruct F as (Fl & Fr). eapply same_trans; [apply then_same; [apply (IH Fr)|]|].
    + intros s1 s2 v E1 _ E. apply then_same; [now apply ev_ext|]. intros s3 s4 w E3 _ E'. apply run_call_ext; auto.
      apply ev_run in E1. apply ev_run in E3. tauto.
    + destruct c; [apply same_refl|exact I].
  - cbn [ev]. destruct F as (Fl & Fr). rewrite ev_value by auto. cbn [then_]. eapply same_trans; [apply then_same; [apply (IH Fl)|]|].
    + intros s1 s2 v E1 _ E. apply run_call_ext; auto. apply ev_run in E1. tauto.
    + destruct c as [s' l'|]; [|exact I]. cbn [plug then_ ev]. rewrite (ev_value _ _ _ e) by exact V. cbn [then_]. apply same_refl.
Qed.

Lemma steps_ev : forall p ty c d, steps p ty c d -> match c with Run _ e => race_free e | Undefined => True end -> final d ->
  same_config (then_ c (ev p ty)) d.
Proof.
  intros p ty c d H. induction H as [c|s e c c' S H IH]; intros F D.
  - destruct c as [s e|]; [|exact I]. cbn in *. rewrite ev_value by auto. apply same_refl.
  - cbn [then_]. eapply same_trans; [apply (step_ev _ _ _ _ _ S F)|]. apply IH; auto.
    apply step_uses in S. destruct c; auto. destruct S as (_ & _ & _ & S & _). auto.
Qed.

(** Every execution of a race-free expression ends in the same state. *)
Lemma order_irrelevant : forall p ty s e c d, race_free e ->
  steps p ty (Run s e) c -> final c -> steps p ty (Run s e) d -> final d -> same_config c d.
Proof.
  intros p ty s e c d F C Fc D Fd. eapply same_trans; [apply same_sym, (steps_ev _ _ _ _ C F Fc)|apply (steps_ev _ _ _ _ D F Fd)].
Qed.

(** Types. *)
Lemma rep_eqb_refl' : forall t, rep_eqb t t = true.
Proof. intros [b n]. unfold rep_eqb. cbn. rewrite Z.eqb_refl. now destruct b. Qed.

Lemma call_typ : forall p ty s e s' v, call p ty s e = Some (Run s' v) -> typ ty e <> None -> typ ty v = typ ty e.
Proof.
  intros p ty s e s' v H T. destruct e; try discriminate; cbn [call] in H.
  - unfold call1, temporary in H. destruct f, e; cbn [load] in H; try discriminate;
    repeat match type of H with context [match ?r with Ok _ => _ | UB _ => _ end] => destruct r; try discriminate end;
    inversion H; subst; reflexivity.
  - unfold call2, temporary in H. destruct e1, e2; cbn [load] in H; try discriminate;
    repeat match type of H with context [match ?r with Ok _ => _ | UB _ => _ end] => destruct r; try discriminate end;
    inversion H; subst; reflexivity.
  - unfold call_set, assigned in H. destruct e1; try discriminate. cbn in T |- *.
    assert (G : v = Var x).
    { repeat match type of H with context [match ?r with _ => _ end] => destruct r; try discriminate end; now inversion H. }
    subst v. destruct o; cbn in *; destruct (typ ty e2) as [[]|]; try contradiction; auto.
    destruct (rep_eqb t (ty x)); [auto|contradiction].
Qed.

Lemma step_typ : forall p ty s e c, step p ty s e c -> typ ty e <> None ->
  match c with Run _ e' => typ ty e' = typ ty e | Undefined => True end.
Proof.
  intros p ty s e c H. induction H as [s e c C|s f e c H IH|s op l r c H IH|s op l r c H IH|s o l e c H IH|s o l e c V H IH]; intros T.
  - destruct c as [s' v|]; auto. eapply call_typ; eauto.
  - destruct c as [s' e'|]; cbn [plug]; auto. cbn in *. rewrite IH; auto. intros E. rewrite E in T. destruct f; now apply T.
  - destruct c as [s' e'|]; cbn [plug]; auto. cbn in *. rewrite IH; auto. intros E. rewrite E in T. now apply T.
  - destruct c as [s' e'|]; cbn [plug]; auto. cbn in *. rewrite IH; auto. intros E. rewrite E in T. destruct (typ ty l) as [[]|]; now apply T.
  - destruct c as [s' e'|]; cbn [plug]; auto. cbn in *. rewrite IH; auto. intros E. rewrite E in T. destruct (typ ty l) as [[? []|]|], o; now apply T.
  - destruct c as [s' e'|]; cbn [plug]; auto. cbn in *. rewrite IH; auto. intros E. rewrite E in T. now apply T.
Qed.

Lemma progress : forall p ty e s, typ ty e <> None -> is_value e = true \/ exists c, step p ty s e c.
Proof.
  intros p ty e s. induction e as [y|t v|d y|t z|f e IH|op l IHl r IHr|o l IHl e IHe]; intros T; auto; right.
  - cbn in T. assert (T1 : typ ty e <> None) by (intros E; rewrite E in T; destruct f; now apply T).
    destruct (IH T1) as [V|[c H]]; [|eauto using step_one].
    destruct (call p ty s (One f e)) eqn:C; [eauto using step_call|]. exfalso. revert C T.
    cbn. unfold call1. destruct f, e; try discriminate V; cbn; intros; try discriminate; auto.
  - cbn in T. assert (T1 : typ ty l <> None) by (intros E; rewrite E in T; now apply T).
    assert (T2 : typ ty r <> None) by (intros E; rewrite E in T; destruct (typ ty l) as [[]|]; now apply T).
    destruct (IHl T1) as [V|[c H]]; [|eauto using step_left].
    destruct (IHr T2) as [W|[c H]]; [|eauto using step_right].
    destruct (call p ty s (Bin op l r)) eqn:C; [eauto using step_call|]. exfalso. revert C T.
    cbn. unfold call2. destruct l, r; try discriminate V; try discriminate W; cbn; intros; try discriminate; auto.
  - cbn in T. assert (T1 : typ ty l <> None) by (intros E; rewrite E in T; now apply T).
    assert (T2 : typ ty e <> None) by (intros E; rewrite E in T; destruct (typ ty l) as [[? []|]|], o; now apply T).
    destruct (IHe T2) as [W|[c H]]; [|eauto using step_set_right].
    destruct (IHl T1) as [V|[c H]]; [|eauto using step_set_left].
    destruct (call p ty s (Set_ o l e)) eqn:C; [eauto using step_call|]. exfalso. revert C T.
    cbn. unfold call_set. destruct l; try discriminate V; cbn; try tauto.
    destruct o, e; try discriminate W; cbn; intros; try discriminate; auto.
    + destruct (rep_eqb (ty x0) (ty x)); [discriminate|auto].
    + destruct (rep_eqb t (ty x)); [discriminate|auto].
Qed.

Lemma steps_finish : forall p ty n e s, (size e <= n)%nat -> typ ty e <> None -> exists c, steps p ty (Run s e) c /\ final c.
Proof.
  intros p ty. induction n as [|n IH]; intros e s L T.
  - exists (Run s e). split; [constructor|]. destruct e; cbn in *; auto; lia.
  - destruct (progress p ty e s T) as [V|[c H]]; [exists (Run s e); split; [constructor|auto]|].
    pose proof (step_typ _ _ _ _ _ H T) as T'. pose proof (step_uses _ _ _ _ _ H) as U. destruct c as [s' e'|].
    + destruct (IH e' s') as [d [D F]]; [destruct U as (_ & _ & _ & _ & U); lia|congruence|]. exists d. split; auto. econstructor; eauto.
    + exists Undefined. split; [econstructor; [eauto|constructor]|exact I].
Qed.

(** Expressions without assignments. *)
Lemma int_term_ev : forall p ty s i,
  match ieval ty s i with
  | Ok z => exists w, ev p ty s (int_term i) = Run s w /\ load ty s w = Some (AInt (itype ty i) z)
  | UB _ => ev p ty s (int_term i) = Undefined
  end.
Proof.
  intros p ty s [t z|x|x|x]; cbn; eauto. unfold run_call, call, call1. cbn [load].
  destruct (f_trunc (ty x) (s x)); cbn; eauto.
Qed.
Lemma int_term_pure : forall i x, ~ writes (int_term i) x.
Proof. intros [t z|y|y|y] x; cbn; auto. Qed.
Lemma pure_term_pure : forall ty e x, ~ writes (pure_term ty e) x.
Proof.
  intros ty e x. induction e; cbn; try tauto; try (intros [A|A]; auto; now apply int_term_pure in A). apply int_term_pure.
Qed.
Lemma int_term_race_free : forall i, race_free (int_term i).
Proof. intros []; cbn; auto. Qed.
Lemma pure_term_race_free : forall ty e, race_free (pure_term ty e).
Proof.
  intros ty e. induction e; cbn; auto using int_term_race_free;
  (split; [auto using int_term_race_free|]; split; [auto using int_term_race_free|]; intros x; split; intros W; exfalso; revert W;
   auto using pure_term_pure, int_term_pure); first [apply pure_term_pure | apply int_term_pure].
Qed.

Lemma pure_term_ev : forall p ty s e,
  match feval p ty s e with
  | Ok v => exists w, ev p ty s (pure_term ty e) = Run s w /\ load ty s w = Some (AFrac (ftype ty e) v)
  | UB _ => ev p ty s (pure_term ty e) = Undefined
  end.
Proof.
  intros p ty s e. induction e; cbn [feval pure_term ftype bind]; eauto.
  - cbn. eauto.
  - cbn. eauto.
  - cbn [ev]. pose proof (int_term_ev p ty s i) as H. destruct (ieval ty s i) as [z|u]; cbn [bind].
    + destruct H as (w & -> & L). cbn [then_]. unfold run_call, call, call1. rewrite L.
      eexists. split; [destruct w; reflexivity|]. cbn. unfold conv_int. now rewrite rep_eqb_refl'.
    + now rewrite H.
  - cbn [ev]. destruct (feval p ty s e) as [v|u]; cbn [bind].
    + destruct IHe as (w & -> & L). cbn [then_]. unfold run_call, call, call1. rewrite L.
      eexists. split; [destruct w; reflexivity|]. reflexivity.
    + now rewrite IHe.
  - cbn [ev]. destruct (feval p ty s e) as [v|u]; cbn [bind].
    + destruct IHe as (w & -> & L). cbn [then_]. unfold run_call, call, call1. rewrite L.
      destruct (f_negate p (ftype ty e) v); [eexists; split; [destruct w; reflexivity|]; reflexivity|destruct w; reflexivity].
    + now rewrite IHe.
  - cbn [ev]. destruct (feval p ty s e) as [v|u]; cbn [bind].
    + destruct IHe as (w & -> & L). cbn [then_]. unfold run_call, call, call1. rewrite L.
      destruct (f_abs p (ftype ty e) v); [eexists; split; [destruct w; reflexivity|]; reflexivity|destruct w; reflexivity].
    + now rewrite IHe.
  - cbn [ev]. destruct (feval p ty s e) as [v|u]; cbn [bind].
    + destruct IHe as (w & -> & L). cbn [then_]. unfold run_call, call, call1. rewrite L.
      destruct (reduce (ftype ty e) v normalize_signs_mode); [eexists; split; [destruct w; reflexivity|]; reflexivity|destruct w; reflexivity].
    + now rewrite IHe.
  - cbn [ev]. destruct (feval p ty s e1) as [v|u]; cbn [bind]; [|now rewrite IHe1].
    destruct IHe1 as (w & -> & L). cbn [then_].
    destruct (feval p ty s e2) as [v2|u]; cbn [bind]; [|now rewrite IHe2].
    destruct IHe2 as (w2 & -> & L2). cbn [then_]. unfold run_call, call, call2. rewrite L, L2.
    destruct (f_arith p (ftype ty e1) (ftype ty e2) op (RR v v2)); cbn; eauto.
  - cbn [ev]. destruct (feval p ty s e) as [v|u]; cbn [bind]; [|now rewrite IHe].
    destruct IHe as (w & -> & L). cbn [then_].
    pose proof (int_term_ev p ty s i) as H. destruct (ieval ty s i) as [z|u]; cbn [bind]; [|now rewrite H].
    destruct H as (w2 & -> & L2). cbn [then_]. unfold run_call, call, call2. rewrite L, L2.
    destruct (f_arith p (ftype ty e) (itype ty i) op (RI v z)); cbn; eauto.
  - cbn [ev]. pose proof (int_term_ev p ty s i) as H. destruct (ieval ty s i) as [z|u]; cbn [bind]; [|now rewrite H].
    destruct H as (w2 & -> & L2). cbn [then_].
    destruct (feval p ty s e) as [v|u]; cbn [bind]; [|now rewrite IHe].
    destruct IHe as (w & -> & L). cbn [then_]. unfold run_call, call, call2. rewrite L, L2.
    destruct (f_arith p (itype ty i) (ftype ty e) op (IR z v)); cbn; eauto.
Qed.

Lemma pure_executions : forall p ty s e c, steps p ty (Run s (pure_term ty e)) c -> final c ->
  match c with
  | Run s' w => (forall x, s' x = s x) /\ exists v, feval p ty s e = Ok v /\ load ty s' w = Some (AFrac (ftype ty e) v)
  | Undefined => exists u, feval p ty s e = UB u
  end.
Proof.
  intros p ty s e c H F. pose proof (steps_ev _ _ _ _ H (pure_term_race_free ty e) F) as E. cbn [then_] in E.
  pose proof (pure_term_ev p ty s e) as P. destruct (feval p ty s e) as [v|u].
  - destruct P as (w & P & L). rewrite P in E. destruct c as [s' w'|]; [|contradiction]. destruct E as [-> E].
    split; [intros x; symmetry; auto|]. exists v. split; auto. rewrite <- L. symmetry. apply load_agree. intros x _. apply E.
  - rewrite P in E. destruct c; [contradiction|]. eauto.
Qed.

(** Assignment statements. *)
Definition outcome (r : res store) (x : nat) : config :=
  match r with Ok s => Run s (Var x) | UB _ => Undefined end.
Lemma opassign_ev : forall p ty s op x e,
  ev p ty s (Set_ (Some op) (Var x) (pure_term ty e)) =
    match (do v <- feval p ty s e; do r <- f_assign p (ty x) op (s x) (FracOperand (ftype ty e) v); Ok (write s x r)) with
    | Ok s' => Run s' (Var x) | UB _ => Undefined end.
Proof.
  intros p ty s op x e. cbn [ev]. pose proof (pure_term_ev p ty s e) as P. destruct (feval p ty s e) as [v|u]; cbn [bind].
  - destruct P as (w & -> & L). cbn [then_]. unfold run_call, call, call_set, assigned. rewrite L.
    destruct (f_assign p (ty x) op (s x) (FracOperand (ftype ty e) v)); reflexivity.
  - now rewrite P.
Qed.
Lemma opassign_int_ev : forall p ty s op x i,
  ev p ty s (Set_ (Some op) (Var x) (int_term i)) =
    match (do z <- ieval ty s i; do r <- f_assign p (ty x) op (s x) (IntOperand (itype ty i) z); Ok (write s x r)) with
    | Ok s' => Run s' (Var x) | UB _ => Undefined end.
Proof.
  intros p ty s op x i. cbn [ev]. pose proof (int_term_ev p ty s i) as P. destruct (ieval ty s i) as [v|u]; cbn [bind].
  - destruct P as (w & -> & L). cbn [then_]. unfold run_call, call, call_set, assigned. rewrite L.
    destruct (f_assign p (ty x) op (s x) (IntOperand (itype ty i) v)); reflexivity.
  - now rewrite P.
Qed.
Lemma assign_ev : forall p ty s x e,
  ev p ty s (Set_ None (Var x) (One (FMake (ty x)) (pure_term ty e))) =
    match (do v <- feval p ty s e; Ok (write s x (f_convert (ftype ty e) (ty x) v))) with
    | Ok s' => Run s' (Var x) | UB _ => Undefined end.
Proof.
  intros p ty s x e. cbn [ev]. pose proof (pure_term_ev p ty s e) as P. destruct (feval p ty s e) as [v|u]; cbn [bind].
  - destruct P as (w & -> & L). cbn [then_]. unfold run_call at 1, call, call1. rewrite L.
    replace (match w with Var _ => _ | _ => _ end) with (Some (Run s (Tmp (ty x) (f_convert (ftype ty e) (ty x) v)))) by (destruct w; reflexivity).
    cbn. unfold run_call, call, call_set. cbn. now rewrite rep_eqb_refl'.
  - now rewrite P.
Qed.

(** A variable next to an assignment to it. *)
Lemma shared_ev : forall p ty op x a s s' c, race_free a -> steps p ty (Run s a) (Run s' (Var x)) ->
  (steps p ty (Run s (Bin op (Var x) a)) c \/ steps p ty (Run s (Bin op a (Var x))) c) -> final c ->
  same_config c (temporary s' (common_rep (ty x) (ty x)) (f_arith p (ty x) (ty x) op (RR (s' x) (s' x)))).
Proof.
  intros p ty op x a s s' c Fa Ha Hc Fc.
  pose proof (steps_ev _ _ _ _ Ha Fa eq_refl) as Ea. cbn [then_] in Ea.
  destruct Hc as [H|H].
  - assert (F : race_free (Bin op (Var x) a)).
    { cbn. repeat split; auto; intros []. }
    pose proof (steps_ev _ _ _ _ H F Fc) as E. cbn [then_ ev] in E.
    destruct (ev p ty s a) as [s1 v|]; [|contradiction]. destruct Ea as [-> Ea]. cbn [then_] in E.
    eapply same_trans; [apply same_sym, E|]. unfold run_call, call, call2. cbn [load]. rewrite Ea.
    destruct (f_arith p (ty x) (ty x) op (RR (s' x) (s' x))); cbn; auto.
  - assert (F : race_free (Bin op a (Var x))).
    { cbn. repeat split; auto. }
    pose proof (steps_ev _ _ _ _ H F Fc) as E. cbn [then_ ev] in E.
    destruct (ev p ty s a) as [s1 v|]; [|contradiction]. destruct Ea as [-> Ea]. cbn [then_] in E.
    eapply same_trans; [apply same_sym, E|]. unfold run_call, call, call2. cbn [load]. rewrite Ea.
    destruct (f_arith p (ty x) (ty x) op (RR (s' x) (s' x))); cbn; auto.
Qed.

(** Assignments to the result of an assignment. *)
Lemma chain_ev : forall p ty o1 o2 x a b s s1 c d, race_free a -> is_value b = true ->
  steps p ty (Run s (Set_ o1 (Var x) a)) (Run s1 (Var x)) ->
  steps p ty (Run s1 (Set_ o2 (Var x) b)) c -> final c ->
  steps p ty (Run s (Set_ o2 (Set_ o1 (Var x) a) b)) d -> final d -> same_config c d.
Proof.
  intros p ty o1 o2 x a b s s1 c d Fa Vb H1 H2 Fc H3 Fd.
  assert (F1 : race_free (Set_ o1 (Var x) a)) by (cbn; auto).
  assert (Fb : race_free b) by (destruct b; try discriminate; exact I).
  assert (F2 : race_free (Set_ o2 (Var x) b)) by (split; [exact I|exact Fb]).
  assert (F3 : race_free (Set_ o2 (Set_ o1 (Var x) a) b)) by (split; [exact F1|exact Fb]).
  pose proof (steps_ev _ _ _ _ H1 F1 eq_refl) as E1. pose proof (steps_ev _ _ _ _ H2 F2 Fc) as E2.
  pose proof (steps_ev _ _ _ _ H3 F3 Fd) as E3. cbn [then_] in *. eapply same_trans; [apply same_sym, E2|].
  apply same_sym. eapply same_trans; [apply same_sym, E3|].
  change (ev p ty s (Set_ o2 (Set_ o1 (Var x) a) b)) with
    (then_ (ev p ty s b) (fun s v => then_ (ev p ty s (Set_ o1 (Var x) a)) (fun s w => run_call p ty s (Set_ o2 w v)))).
  rewrite ev_value by auto. cbn [then_]. destruct (ev p ty s (Set_ o1 (Var x) a)) as [s2 v|]; [|contradiction].
  destruct E1 as [-> E1]. cbn [then_]. cbn [ev]. rewrite ev_value by auto. cbn [then_]. apply run_call_ext; auto.
Qed.

(** The evaluation from left to right is one of the executions. *)
Lemma steps_trans : forall p ty a b c, steps p ty a b -> steps p ty b c -> steps p ty a c.
Proof. intros p ty a b c H. induction H; auto. intros. econstructor; eauto. Qed.
Lemma steps_one : forall p ty f c d, steps p ty c d -> steps p ty (plug (One f) c) (plug (One f) d).
Proof. intros p ty f c d H. induction H; [constructor|]. cbn [plug]. econstructor; [apply step_one; eauto|auto]. Qed.
Lemma steps_left : forall p ty op r c d, steps p ty c d -> steps p ty (plug (fun l => Bin op l r) c) (plug (fun l => Bin op l r) d).
Proof. intros p ty op r c d H. induction H; [constructor|]. cbn [plug]. econstructor; [apply step_left; eauto|auto]. Qed.
Lemma steps_right : forall p ty op l c d, steps p ty c d -> steps p ty (plug (Bin op l) c) (plug (Bin op l) d).
Proof. intros p ty op l c d H. induction H; [constructor|]. cbn [plug]. econstructor; [apply step_right; eauto|auto]. Qed.
Lemma steps_set_right : forall p ty o l c d, steps p ty c d -> steps p ty (plug (Set_ o l) c) (plug (Set_ o l) d).
Proof. intros p ty o l c d H. induction H; [constructor|]. cbn [plug]. econstructor; [apply step_set_right; eauto|auto]. Qed.
Lemma steps_set_left : forall p ty o e c d, is_value e = true -> steps p ty c d ->
  steps p ty (plug (fun l => Set_ o l e) c) (plug (fun l => Set_ o l e) d).
Proof. intros p ty o e c d V H. induction H; [constructor|]. cbn [plug]. econstructor; [apply step_set_left; eauto|auto]. Qed.
Lemma steps_typ : forall p ty c d, steps p ty c d -> forall s e s' e', c = Run s e -> d = Run s' e' -> typ ty e <> None -> typ ty e' = typ ty e.
Proof.
  intros p ty c d H. induction H as [c|s e c c' S H IH]; intros s0 e0 s' e' C D T.
  - subst. now inversion D.
  - inversion C; subst. pose proof (step_typ _ _ _ _ _ S T) as E. destruct c as [s1 e1|]; [|inversion H].
    rewrite <- E. apply (IH s1 e1 s' e'); auto. congruence.
Qed.
Lemma run_call_step : forall p ty s e,
  (match e with One _ a => is_value a = true | Bin _ l r => is_value l = true /\ is_value r = true
   | Set_ _ l a => is_value l = true /\ is_value a = true | _ => False end) -> typ ty e <> None ->
  steps p ty (Run s e) (run_call p ty s e).
Proof.
  intros p ty s e V T. destruct (progress p ty e s T) as [W|[c H]]; [destruct e; try contradiction; discriminate|].
  assert (C : call p ty s e = Some c).
  { inversion H; subst; auto; exfalso.
    - destruct e0; try discriminate; inversion H0; discriminate.
    - destruct V as [V _]. destruct l; try discriminate; inversion H0; discriminate.
    - destruct V as [_ V]. destruct r; try discriminate; inversion H0; discriminate.
    - destruct V as [_ V]. destruct e0; try discriminate; inversion H0; discriminate.
    - destruct V as [V _]. destruct l; try discriminate; inversion H1; discriminate. }
  unfold run_call. rewrite C. econstructor; [apply step_call; eauto|constructor].
Qed.
Lemma ev_steps : forall p ty e s, typ ty e <> None -> steps p ty (Run s e) (ev p ty s e).
Proof.
  intros p ty. induction e as [y|t v|d y|t z|f e IH|op l IHl r IHr|o l IHl e IHe]; intros s T; try constructor; cbn [ev].
  - cbn in T. assert (T1 : typ ty e <> None) by (intros E; rewrite E in T; destruct f; now apply T).
    pose proof (IH s T1) as H. pose proof (steps_one p ty f _ _ H) as G. cbn [plug] in G. eapply steps_trans; [exact G|].
    destruct (ev p ty s e) as [s1 v|] eqn:E; [|constructor]. cbn [plug then_]. destruct (ev_run _ _ _ _ _ _ E) as (V & _).
    apply run_call_step; auto. cbn. rewrite (steps_typ _ _ _ _ H s e s1 v eq_refl eq_refl T1). exact T.
  - cbn in T. assert (T1 : typ ty l <> None) by (intros E; rewrite E in T; now apply T).
    assert (T2 : typ ty r <> None) by (intros E; rewrite E in T; destruct (typ ty l) as [[]|]; now apply T).
    pose proof (IHl s T1) as H. pose proof (steps_left p ty op r _ _ H) as G. cbn [plug] in G. eapply steps_trans; [exact G|].
    destruct (ev p ty s l) as [s1 v|] eqn:E; [|constructor]. cbn [plug then_]. destruct (ev_run _ _ _ _ _ _ E) as (V & _).
    pose proof (IHr s1 T2) as H2. pose proof (steps_right p ty op v _ _ H2) as G2. cbn [plug] in G2. eapply steps_trans; [exact G2|].
    destruct (ev p ty s1 r) as [s2 w|] eqn:E2; [|constructor]. cbn [plug then_]. destruct (ev_run _ _ _ _ _ _ E2) as (W & _).
    apply run_call_step; auto. cbn. rewrite (steps_typ _ _ _ _ H s l s1 v eq_refl eq_refl T1), (steps_typ _ _ _ _ H2 s1 r s2 w eq_refl eq_refl T2). exact T.
  - cbn in T. assert (T1 : typ ty l <> None) by (intros E; rewrite E in T; now apply T).
    assert (T2 : typ ty e <> None) by (intros E; rewrite E in T; destruct (typ ty l) as [[? []|]|], o; now apply T).
    pose proof (IHe s T2) as H. pose proof (steps_set_right p ty o l _ _ H) as G. cbn [plug] in G. eapply steps_trans; [exact G|].
    destruct (ev p ty s e) as [s1 v|] eqn:E; [|constructor]. cbn [plug then_]. destruct (ev_run _ _ _ _ _ _ E) as (V & _).
    pose proof (IHl s1 T1) as H2. pose proof (steps_set_left p ty o v _ _ V H2) as G2. cbn [plug] in G2. eapply steps_trans; [exact G2|].
    destruct (ev p ty s1 l) as [s2 w|] eqn:E2; [|constructor]. cbn [plug then_]. destruct (ev_run _ _ _ _ _ _ E2) as (W & _).
    apply run_call_step; auto. cbn. rewrite (steps_typ _ _ _ _ H s e s1 v eq_refl eq_refl T2), (steps_typ _ _ _ _ H2 s1 l s2 w eq_refl eq_refl T1). exact T.
Qed.
