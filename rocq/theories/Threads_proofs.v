(** Lemmas about threads. *)

From Coq Require Import ZArith List Bool Lia Arith.
From Verif Require Import Machine Raw Ops Spec Fraction Fmath Mixed_spec Parts Parts_spec Threads Threads_spec.
From Verif Require Import Machine_proofs Fraction_proofs Parts_proofs.
Import ListNotations.
Open Scope Z_scope.

Definition agree (F : cell -> Prop) (m m' : mem) : Prop := forall c, F c -> m c = m' c.

Lemma get_agree : forall F m m' x, agree F m m' -> (forall c, part_of x c -> F c) -> get_frac m x = get_frac m' x.
Proof.
  intros F m m' x A H. unfold get_frac. rewrite (A (NumOf x)), (A (DenOf x)); auto; apply H; [now right|now left].
Qed.

Lemma int_agree : forall F G m m' i, agree F m m' -> (forall c, int_reads i c -> F c) -> pint_eval G m i = pint_eval G m' i.
Proof.
  intros F G m m' i A. induction i as [s z|c|x|op i IHi j IHj]; intros H; cbn [pint_eval int_reads] in *.
  - reflexivity.
  - now rewrite (A c) by auto.
  - now rewrite (get_agree F m m' x).
  - now rewrite IHi, IHj by auto.
Qed.

Lemma frac_agree : forall F p G m m' e, agree F m m' -> (forall c, frac_reads e c -> F c) -> pfrac_eval p G m e = pfrac_eval p G m' e.
Proof.
  intros F p G m m' e A. induction e; intros H; cbn [pfrac_eval frac_reads] in *;
    rewrite ?(get_agree F m m' _ A H); repeat rewrite (int_agree F G m m') by auto;
    rewrite ?IHe by auto; rewrite ?IHe1, ?IHe2 by auto; reflexivity.
Qed.

Lemma cond_agree : forall F p G m m' b, agree F m m' -> (forall c, cond_reads b c -> F c) -> pcond_eval p G m b = pcond_eval p G m' b.
Proof.
  intros F p G m m' b A. induction b; intros H; cbn [pcond_eval cond_reads] in *;
    repeat rewrite (frac_agree F p G m m') by auto; repeat rewrite (int_agree F G m m') by auto;
    rewrite ?IHb by auto; rewrite ?IHb1, ?IHb2 by auto; reflexivity.
Qed.

(** What a thread touches. *)
Definition instr_reads (i : instr) (c : cell) : Prop := match i with Do p => may_read p c | Store _ _ => False end.
Definition instr_writes (i : instr) (c : cell) : Prop := match i with Do p => may_write p c | Store d _ => c = d end.
Definition within (F W : cell -> Prop) (k : list instr) : Prop :=
  Forall (fun i => (forall c, instr_reads i c -> F c) /\ (forall c, instr_writes i c -> W c)) k.

Lemma put_agree : forall F m m' c z, agree F m m' -> agree F (put m c z) (put m' c z).
Proof. intros F m m' c z A d D. unfold put. destruct (cell_eqb d c); auto. Qed.

Lemma put_other : forall m c z d, d <> c -> put m c z d = m d.
Proof. intros m c z d N. unfold put. destruct (cell_eqb_spec d c); [contradiction|reflexivity]. Qed.

Definition step_agree (F W : cell -> Prop) (m : mem) (x y : option (res (mem * list instr))) : Prop :=
  match x, y with
  | None, None => True
  | Some (UB u), Some (UB v) => u = v
  | Some (Ok (m1, k1)), Some (Ok (m2, k2)) =>
      k1 = k2 /\ agree F m1 m2 /\ within F W k1 /\ (forall c, ~ W c -> m1 c = m c)
  | _, _ => False
  end.

Lemma stores_within : forall (F W : cell -> Prop) x v k, (forall c, part_of x c -> W c) -> within F W k -> within F W (stores x v ++ k).
Proof.
  intros F W x v k H K. unfold stores. cbn [app]. constructor; [|constructor; [|exact K]]; (split; cbn; [contradiction|]);
    intros c ->; apply H; [now left|now right].
Qed.

Lemma within_cons : forall F W i k, within F W (i :: k) ->
  (forall c, instr_reads i c -> F c) /\ (forall c, instr_writes i c -> W c) /\ within F W k.
Proof. intros F W i k H. inversion H; subst. tauto. Qed.

Lemma do_within : forall (F W : cell -> Prop) c k, (forall d, may_read c d -> F d) -> (forall d, may_write c d -> W d) -> within F W k -> within F W (Do c :: k).
Proof. intros F W c k R Wr K. constructor; auto. Qed.

Lemma tstep_agree : forall F W p G m m' k, agree F m m' -> within F W k -> step_agree F W m (tstep p G m k) (tstep p G m' k).
Proof.
  intros F W p G m m' k A H. destruct k as [|[c|c z] k]; [exact I| |].
  - apply within_cons in H as [R [Wr K]]. cbn [instr_reads instr_writes] in R, Wr.
    destruct c as [|c i|op c i|x e|op x e|op x i|x y|a b|b x y|b x]; cbn [tstep may_read may_write] in *.
    + cbn. auto.
    + rewrite (int_agree F G m m' i A) by auto. destruct (pint_eval G m' i); cbn; [|reflexivity].
      repeat split; auto. constructor; [|exact K]. split; cbn; [contradiction|]. intros d ->. auto.
    + rewrite (int_agree F G m m' i A) by auto. destruct (pint_eval G m' i) as [z|]; cbn [bind]; [|reflexivity].
      rewrite (A c) by auto. destruct (int_arith _ op _ _); cbn; [|reflexivity].
      repeat split; auto. constructor; [|exact K]. split; cbn; [contradiction|]. intros d ->. auto.
    + rewrite (frac_agree F p G m m' e A) by auto. destruct (pfrac_eval p G m' e); cbn [bind]; [|reflexivity].
      repeat split; auto. apply stores_within; auto.
    + rewrite (frac_agree F p G m m' e A) by auto. destruct (pfrac_eval p G m' e); cbn [bind]; [|reflexivity].
      rewrite (get_agree F m m' x A) by auto. destruct (f_assign p _ op _ _); cbn [bind]; [|reflexivity].
      repeat split; auto. apply stores_within; auto.
    + rewrite (int_agree F G m m' i A) by auto. destruct (pint_eval G m' i); cbn [bind]; [|reflexivity].
      rewrite (get_agree F m m' x A) by auto. destruct (f_assign p _ op _ _); cbn [bind]; [|reflexivity].
      repeat split; auto. apply stores_within; auto.
    + rewrite (get_agree F m m' y A) by auto. repeat split; auto. apply stores_within; auto.
    + repeat split; auto. repeat apply do_within; auto.
    + rewrite (cond_agree F p G m m' b A) by auto. destruct (pcond_eval p G m' b) as [v|]; cbn [bind]; [|reflexivity].
      repeat split; auto. apply do_within; auto; destruct v; auto.
    + rewrite (cond_agree F p G m m' b A) by auto. destruct (pcond_eval p G m' b) as [[|]|]; cbn [bind]; [| |reflexivity];
      repeat split; auto. repeat apply do_within; auto.
  - apply within_cons in H as [R [Wr K]]. cbn [tstep step_agree instr_writes] in *. repeat split; auto.
    + now apply put_agree.
    + intros d D. apply put_other. intros ->. auto.
Qed.

Lemma agree_refl : forall F m, agree F m m.
Proof. intros F m c _. reflexivity. Qed.

Lemma tstep_within : forall F W p G m k m1 k1, within F W k -> tstep p G m k = Some (Ok (m1, k1)) ->
  within F W k1 /\ forall c, ~ W c -> m1 c = m c.
Proof.
  intros F W p G m k m1 k1 H E. pose proof (tstep_agree F W p G m m k (agree_refl F m) H) as A.
  rewrite E in A. cbn in A. tauto.
Qed.

Definition runs_agree (F : cell -> Prop) (x y : res (mem * list instr)) : Prop :=
  match x, y with
  | Ok (m, k), Ok (m', k') => k = k' /\ agree F m m'
  | UB u, UB v => u = v
  | _, _ => False
  end.

Lemma solo_agree : forall F W p G n m m' k, agree F m m' -> within F W k -> runs_agree F (solo p G n m k) (solo p G n m' k).
Proof.
  intros F W p G. induction n as [|n IH]; intros m m' k A H; cbn [solo]; [now split|].
  pose proof (tstep_agree F W p G m m' k A H) as S.
  destruct (tstep p G m k) as [[[m1 k1]|u]|], (tstep p G m' k) as [[[m2 k2]|u']|]; cbn in S; try contradiction.
  - destruct S as [-> [A1 [W1 _]]]. cbn [bind fst snd]. now apply IH.
  - subst. reflexivity.
  - now split.
Qed.

(** Non-interference. *)
Definition separate (F W : nat -> cell -> Prop) : Prop := forall i j c, i <> j -> W i c -> ~ F j c.

Fixpoint count (i : nat) (s : list nat) : nat :=
  match s with [] => O | j :: s => if Nat.eqb i j then S (count i s) else count i s end.

Definition others (F : nat -> cell -> Prop) (i : nat) (c : cell) : Prop := F i c.

Lemma isolated : forall F W p G s m ts, separate F W -> (forall i, within (F i) (W i) (ts i)) ->
  match interleave p G s m ts with
  | Ok (m', ts') =>
      (forall i, exists mi, solo p G (count i s) m (ts i) = Ok (mi, ts' i) /\ agree (F i) mi m') /\
      (forall c, (forall i, ~ W i c) -> m' c = m c)
  | UB u => exists i, solo p G (count i s) m (ts i) = UB u
  end.
Proof.
  intros F W p G s. induction s as [|j s IH]; intros m ts S H; cbn [interleave].
  - split; [|auto]. intros i. exists m. split; [reflexivity|apply agree_refl].
  - destruct (tstep p G m (ts j)) as [[[m1 k1]|u]|] eqn:E; cbn [bind fst snd].
    + destruct (tstep_within _ _ _ _ _ _ _ _ (H j) E) as [K1 U1].
      set (ts1 := fun i => if Nat.eqb i j then k1 else ts i).
      assert (H1 : forall i, within (F i) (W i) (ts1 i)).
      { intros i. unfold ts1. destruct (Nat.eqb_spec i j); [now subst|auto]. }
      assert (Other : forall i, i <> j -> agree (F i) m1 m).
      { intros i N c C. apply U1. intros Wc. exact (S j i c (not_eq_sym N) Wc C). }
      specialize (IH m1 ts1 S H1). destruct (interleave p G s m1 ts1) as [[m' ts']|u].
      * destruct IH as [IH1 IH2]. split.
        -- intros i. destruct (IH1 i) as [mi [E1 A1]]. cbn [count]. unfold ts1 in E1. destruct (Nat.eqb_spec i j) as [->|N].
           ++ exists mi. cbn [solo]. rewrite E. cbn [bind fst snd]. auto.
           ++ pose proof (solo_agree (F i) (W i) p G (count i s) m1 m (ts i) (Other i N) (H i)) as A.
              rewrite E1 in A. destruct (solo p G (count i s) m (ts i)) as [[m2 k2]|]; cbn in A; [|contradiction].
              destruct A as [-> A]. exists m2. split; [reflexivity|]. intros c C. rewrite <- (A c C). auto.
        -- intros c C. rewrite (IH2 c C). auto.
      * destruct IH as [i E1]. exists i. cbn [count]. unfold ts1 in E1. destruct (Nat.eqb_spec i j) as [X|N].
        -- subst j. cbn [solo]. rewrite E. cbn [bind fst snd]. auto.
        -- pose proof (solo_agree (F i) (W i) p G (count i s) m1 m (ts i) (Other i N) (H i)) as A.
           rewrite E1 in A. destruct (solo p G (count i s) m (ts i)) as [[m2 k2]|]; cbn in A; [contradiction|now subst].
    + exists j. cbn [count]. rewrite Nat.eqb_refl. cbn [solo]. now rewrite E.
    + specialize (IH m ts S H). destruct (interleave p G s m ts) as [[m' ts']|u].
      * destruct IH as [IH1 IH2]. split; [|exact IH2]. intros i. destruct (IH1 i) as [mi [E1 A1]]. exists mi.
        split; [|exact A1]. cbn [count]. destruct (Nat.eqb_spec i j) as [->|N]; [|exact E1].
        cbn [solo]. rewrite E. destruct (count j s); cbn [solo] in E1; rewrite ?E in E1; exact E1.
      * destruct IH as [i E1]. exists i. cbn [count]. destruct (Nat.eqb_spec i j) as [X|N]; [|exact E1].
        subst j. exfalso. destruct (count i s); cbn [solo] in E1; rewrite ?E in E1; discriminate E1.
Qed.

(** Steps on one's own against execution of whole statements. *)
Lemma solo_plus : forall p G a b m k, solo p G (a + b) m k = (do s <- solo p G a m k; solo p G b (fst s) (snd s)).
Proof.
  intros p G. induction a as [|a IH]; intros b m k; cbn [solo plus]; [reflexivity|].
  destruct (tstep p G m k) as [[[m1 k1]|u]|] eqn:E; cbn [bind fst snd]; [apply IH|reflexivity|].
  destruct b; cbn [solo]; rewrite ?E; reflexivity.
Qed.

Lemma solo_ended : forall p G n m, solo p G n m [] = Ok (m, []).
Proof. intros p G [|n] m; reflexivity. Qed.

Lemma pexec_solo : forall p G fuel m c, match pexec p G fuel m c with
  | Some (Ok m') => exists n, forall k, solo p G n m (Do c :: k) = Ok (m', k)
  | Some (UB u) => exists n, forall k, solo p G n m (Do c :: k) = UB u
  | None => True
  end.
Proof.
  intros p G. induction fuel as [|fuel IH]; intros m c; cbn [pexec]; [exact I|].
  destruct c as [|c i|op c i|x e|op x e|op x i|x y|a b|b x y|b x].
  - exists 1%nat. reflexivity.
  - destruct (pint_eval G m i) as [z|u] eqn:E; cbn [bind].
    + exists 2%nat. intros k. cbn [solo tstep]. rewrite E. reflexivity.
    + exists 1%nat. intros k. cbn [solo tstep]. rewrite E. reflexivity.
  - destruct (pint_eval G m i) as [z|u] eqn:E; cbn [bind].
    2: { exists 1%nat. intros k. cbn [solo tstep]. rewrite E. reflexivity. }
    cbv zeta. destruct (int_arith _ op _ _) as [r|u] eqn:E1; cbn [bind].
    + exists 2%nat. intros k. cbn [solo tstep]. rewrite E. cbn [bind]. cbv zeta. rewrite E1. reflexivity.
    + exists 1%nat. intros k. cbn [solo tstep]. rewrite E. cbn [bind]. cbv zeta. rewrite E1. reflexivity.
  - destruct (pfrac_eval p G m e) as [v|u] eqn:E; cbn [bind].
    + exists 3%nat. intros k. cbn [solo tstep]. rewrite E. reflexivity.
    + exists 1%nat. intros k. cbn [solo tstep]. rewrite E. reflexivity.
  - destruct (pfrac_eval p G m e) as [v|u] eqn:E; cbn [bind].
    2: { exists 1%nat. intros k. cbn [solo tstep]. rewrite E. reflexivity. }
    destruct (f_assign p _ op _ _) as [r|u] eqn:E1; cbn [bind].
    + exists 3%nat. intros k. cbn [solo tstep]. rewrite E. cbn [bind]. rewrite E1. reflexivity.
    + exists 1%nat. intros k. cbn [solo tstep]. rewrite E. cbn [bind]. rewrite E1. reflexivity.
  - destruct (pint_eval G m i) as [v|u] eqn:E; cbn [bind].
    2: { exists 1%nat. intros k. cbn [solo tstep]. rewrite E. reflexivity. }
    destruct (f_assign p _ op _ _) as [r|u] eqn:E1; cbn [bind].
    + exists 3%nat. intros k. cbn [solo tstep]. rewrite E. cbn [bind]. rewrite E1. reflexivity.
    + exists 1%nat. intros k. cbn [solo tstep]. rewrite E. cbn [bind]. rewrite E1. reflexivity.
  - exists 3%nat. intros k. reflexivity.
  - pose proof (IH m a) as A. destruct (pexec p G fuel m a) as [[m1|u]|]; [| |exact I].
    + destruct A as [n1 A]. pose proof (IH m1 b) as B. destruct (pexec p G fuel m1 b) as [[m2|u]|]; [| |exact I];
      destruct B as [n2 B]; exists (S (n1 + n2)); intros k; cbn [solo tstep bind fst snd]; rewrite solo_plus, A; cbn [bind fst snd]; apply B.
    + destruct A as [n1 A]. exists (S n1). intros k. cbn [solo tstep bind fst snd]. apply A.
  - destruct (pcond_eval p G m b) as [v|u] eqn:E.
    + pose proof (IH m (if v then x else y)) as A. destruct (pexec p G fuel m (if v then x else y)) as [[m1|u]|]; [| |exact I];
      destruct A as [n1 A]; exists (S n1); intros k; cbn [solo tstep]; rewrite E; cbn [bind fst snd]; apply A.
    + exists 1%nat. intros k. cbn [solo tstep]. rewrite E. reflexivity.
  - destruct (pcond_eval p G m b) as [[|]|u] eqn:E.
    + pose proof (IH m x) as A. destruct (pexec p G fuel m x) as [[m1|u]|]; [| |exact I].
      * destruct A as [n1 A]. pose proof (IH m1 (PWhile b x)) as B. destruct (pexec p G fuel m1 (PWhile b x)) as [[m2|u]|]; [| |exact I];
        destruct B as [n2 B]; exists (S (n1 + n2)); intros k; cbn [solo tstep]; rewrite E; cbn [bind fst snd]; rewrite solo_plus, A; cbn [bind fst snd]; apply B.
      * destruct A as [n1 A]. exists (S n1). intros k. cbn [solo tstep]. rewrite E. cbn [bind fst snd]. apply A.
    + exists 1%nat. intros k. cbn [solo tstep]. rewrite E. reflexivity.
    + exists 1%nat. intros k. cbn [solo tstep]. rewrite E. reflexivity.
Qed.

Lemma pexec_more : forall p G fuel fuel' m c r, (fuel <= fuel')%nat -> pexec p G fuel m c = Some r -> pexec p G fuel' m c = Some r.
Proof.
  intros p G. induction fuel as [|fuel IH]; intros fuel' m c r L H; [discriminate H|].
  destruct fuel' as [|fuel']; [lia|]. assert (L' : (fuel <= fuel')%nat) by lia. clear L.
  destruct c as [|c i|op c i|x e|op x e|op x i|x y|a b|b x y|b x]; cbn [pexec] in *; try exact H.
  - destruct (pexec p G fuel m a) as [[m1|u]|] eqn:E; [| |discriminate H]; rewrite (IH fuel' m a _ L' E); [|exact H].
    now apply IH.
  - destruct (pcond_eval p G m b); [|exact H]. now apply IH.
  - destruct (pcond_eval p G m b) as [[|]|]; [|exact H|exact H].
    destruct (pexec p G fuel m x) as [[m1|u]|] eqn:E; [| |discriminate H]; rewrite (IH fuel' m x _ L' E); [|exact H].
    now apply IH.
Qed.

Lemma pexec_unique : forall p G f1 f2 m c r1 r2, pexec p G f1 m c = Some r1 -> pexec p G f2 m c = Some r2 -> r1 = r2.
Proof.
  intros p G f1 f2 m c r1 r2 H1 H2.
  apply (pexec_more p G f1 (f1 + f2)) in H1; [|lia]. apply (pexec_more p G f2 (f1 + f2)) in H2; [|lia]. congruence.
Qed.

Definition final (r : res (mem * list instr)) : Prop :=
  match r with Ok (_, []) => True | Ok _ => False | UB _ => True end.

Definition split_run (p : policy) (G : types) (n : nat) (m : mem) (c : pstmt) (k : list instr) (r : res (mem * list instr)) : Prop :=
  exists fuel, match pexec p G fuel m c with
  | Some (UB u) => r = UB u
  | Some (Ok m1) => exists n1, (n1 < n)%nat /\ solo p G n1 m1 k = r
  | None => False
  end.

Lemma solo_store : forall p G n m c z k r, final r -> solo p G n m (Store c z :: k) = r ->
  exists n1, (n1 < n)%nat /\ solo p G n1 (put m c z) k = r.
Proof.
  intros p G [|n] m c z k r F H; cbn [solo tstep bind fst snd] in H.
  - subst r. contradiction F.
  - exists n. split; [lia|exact H].
Qed.

Lemma solo_stores : forall p G n m x v k r, final r -> solo p G n m (stores x v ++ k) = r ->
  exists n1, (n1 < n)%nat /\ solo p G n1 (put_frac m x v) k = r.
Proof.
  intros p G n m x v k r F H. unfold stores in H. cbn [app] in H.
  apply solo_store in H as [n1 [L1 H]]; [|exact F]. apply solo_store in H as [n2 [L2 H]]; [|exact F].
  exists n2. split; [lia|exact H].
Qed.

Lemma solo_split : forall p G n m c k r, final r -> solo p G n m (Do c :: k) = r -> split_run p G n m c k r.
Proof.
  intros p G n. induction n as [n IH] using lt_wf_ind. intros m c k r F H.
  destruct n as [|n]; [cbn [solo] in H; subst r; contradiction F|].
  assert (One : forall x, pexec p G 1 m c = Some x -> match x with UB u => r = UB u | Ok m1 => exists n1, (n1 < S n)%nat /\ solo p G n1 m1 k = r end ->
    split_run p G (S n) m c k r) by (intros x E X; exists 1%nat; rewrite E; destruct x; exact X).
  destruct c as [|c i|op c i|x e|op x e|op x i|x y|a b|b x y|b x]; cbn [solo tstep] in H.
  - apply (One _ eq_refl). exists n. split; [lia|exact H].
  - apply (One _ eq_refl). destruct (pint_eval G m i); cbn [bind fst snd] in *; [|auto].
    apply solo_store in H as [n1 [L H]]; [|exact F]. exists n1. split; [lia|exact H].
  - apply (One _ eq_refl). cbn [pexec]. destruct (pint_eval G m i); cbn [bind fst snd] in *; [|auto].
    cbv zeta in *. destruct (int_arith _ op _ _); cbn [bind fst snd] in *; [|auto].
    apply solo_store in H as [n1 [L H]]; [|exact F]. exists n1. split; [lia|exact H].
  - apply (One _ eq_refl). destruct (pfrac_eval p G m e); cbn [bind fst snd] in *; [|auto].
    apply solo_stores in H as [n1 [L H]]; [|exact F]. exists n1. split; [lia|exact H].
  - apply (One _ eq_refl). destruct (pfrac_eval p G m e); cbn [bind fst snd] in *; [|auto].
    destruct (f_assign p _ op _ _); cbn [bind fst snd] in *; [|auto].
    apply solo_stores in H as [n1 [L H]]; [|exact F]. exists n1. split; [lia|exact H].
  - apply (One _ eq_refl). destruct (pint_eval G m i); cbn [bind fst snd] in *; [|auto].
    destruct (f_assign p _ op _ _); cbn [bind fst snd] in *; [|auto].
    apply solo_stores in H as [n1 [L H]]; [|exact F]. exists n1. split; [lia|exact H].
  - apply (One _ eq_refl). cbn [bind fst snd] in *.
    apply solo_stores in H as [n1 [L H]]; [|exact F]. exists n1. split; [lia|exact H].
  - cbn [bind fst snd] in H. apply IH in H as [f1 H]; [|lia|exact F].
    destruct (pexec p G f1 m a) as [[m1|u]|] eqn:E1; [| |contradiction].
    + destruct H as [n1 [L1 H]]. apply IH in H as [f2 H]; [|lia|exact F].
      exists (S (f1 + f2)). cbn [pexec]. rewrite (pexec_more p G f1 (f1 + f2) m a _ ltac:(lia) E1).
      destruct (pexec p G f2 m1 b) as [x|] eqn:E2; [|contradiction].
      rewrite (pexec_more p G f2 (f1 + f2) m1 b _ ltac:(lia) E2). destruct x as [m2|u]; [|exact H].
      destruct H as [n2 [L2 H]]. exists n2. split; [lia|exact H].
    + exists (S f1). cbn [pexec]. rewrite E1. exact H.
  - destruct (pcond_eval p G m b) as [v|u] eqn:E; cbn [bind fst snd] in H.
    + apply IH in H as [f1 H]; [|lia|exact F]. exists (S f1). cbn [pexec]. rewrite E.
      destruct (pexec p G f1 m (if v then x else y)) as [[m1|u]|]; [|exact H|contradiction].
      destruct H as [n1 [L1 H]]. exists n1. split; [lia|exact H].
    + exists 1%nat. cbn [pexec]. rewrite E. auto.
  - destruct (pcond_eval p G m b) as [[|]|u] eqn:E; cbn [bind fst snd] in H.
    + apply IH in H as [f1 H]; [|lia|exact F].
      destruct (pexec p G f1 m x) as [[m1|u]|] eqn:E1; [| |contradiction].
      * destruct H as [n1 [L1 H]]. apply IH in H as [f2 H]; [|lia|exact F].
        exists (S (f1 + f2)). cbn [pexec]. rewrite E. rewrite (pexec_more p G f1 (f1 + f2) m x _ ltac:(lia) E1).
        destruct (pexec p G f2 m1 (PWhile b x)) as [y|] eqn:E2; [|contradiction].
        rewrite (pexec_more p G f2 (f1 + f2) m1 _ _ ltac:(lia) E2). destruct y as [m2|u]; [|exact H].
        destruct H as [n2 [L2 H]]. exists n2. split; [lia|exact H].
      * exists (S f1). cbn [pexec]. rewrite E, E1. exact H.
    + exists 1%nat. cbn [pexec]. rewrite E. exists n. split; [lia|exact H].
    + exists 1%nat. cbn [pexec]. rewrite E. auto.
Qed.

Lemma solo_whole : forall p G n m c, match solo p G n m [Do c] with
  | Ok (m', []) => exists fuel, pexec p G fuel m c = Some (Ok m')
  | UB u => exists fuel, pexec p G fuel m c = Some (UB u)
  | _ => True
  end.
Proof.
  intros p G n m c. remember (solo p G n m [Do c]) as r eqn:E. symmetry in E.
  destruct r as [[m' [|i k]]|u]; [|exact I|]; apply solo_split in E as [fuel E]; try exact I; exists fuel;
    destruct (pexec p G fuel m c) as [[m1|u1]|]; try contradiction.
  - destruct E as [n1 [_ E]]. rewrite solo_ended in E. injection E as ->. reflexivity.
  - discriminate E.
  - destruct E as [n1 [_ E]]. rewrite solo_ended in E. discriminate E.
  - injection E as ->. reflexivity.
Qed.

(** The theorems. *)
Definition reads_of (ps : list pstmt) (i : nat) (c : cell) : Prop := exists a, nth_error ps i = Some a /\ (may_read a c \/ may_write a c).
Definition writes_of (ps : list pstmt) (i : nat) (c : cell) : Prop := exists a, nth_error ps i = Some a /\ may_write a c.

Lemma started_within : forall ps i, within (reads_of ps i) (writes_of ps i) (started ps i).
Proof.
  intros ps i. unfold started. destruct (nth_error ps i) as [a|] eqn:E; [|constructor].
  constructor; [|constructor]. split; cbn; unfold reads_of, writes_of; eauto.
Qed.

Lemma race_separate : forall ps, race_free ps -> separate (reads_of ps) (writes_of ps).
Proof. intros ps R i j c N [a [A W]] [b [B T]]. destruct (R i j a b c N A B W). tauto. Qed.

Lemma count_occ_count : forall i s, count_occ Nat.eq_dec s i = count i s.
Proof.
  intros i. induction s as [|j s IH]; [reflexivity|]. cbn [count_occ count].
  destruct (Nat.eq_dec j i) as [->|N]; [rewrite Nat.eqb_refl; now f_equal|]. destruct (Nat.eqb_spec i j); [congruence|exact IH].
Qed.

Lemma started_isolated : forall p G ps s m, race_free ps ->
  match interleave p G s m (started ps) with
  | Ok (m', ts') =>
      (forall i, exists mi, solo p G (count i s) m (started ps i) = Ok (mi, ts' i) /\ agree (reads_of ps i) mi m') /\
      (forall c, (forall i, ~ writes_of ps i c) -> m' c = m c)
  | UB u => exists i, solo p G (count i s) m (started ps i) = UB u
  end.
Proof. intros p G ps s m R. exact (isolated _ _ p G s m (started ps) (race_separate ps R) (started_within ps)). Qed.

Theorem threads_isolated : forall p G ps s m m' ts' i a, race_free ps -> nth_error ps i = Some a ->
  interleave p G s m (started ps) = Ok (m', ts') -> ts' i = [] ->
  exists fuel mi, pexec p G fuel m a = Some (Ok mi) /\
    forall c, may_read a c \/ may_write a c -> m' c = mi c.
Proof.
  intros p G ps s m m' ts' i a R P H E. pose proof (started_isolated p G ps s m R) as I. rewrite H in I.
  destruct I as [I _]. destruct (I i) as [mi [S A]]. unfold started in S. rewrite E, P in S. pose proof (solo_whole p G (count i s) m a) as X.
  rewrite S in X. destruct X as [fuel X]. exists fuel, mi. split; [exact X|]. intros c C. symmetry. apply A. exists a. auto.
Qed.

Theorem threads_untouched : forall p G ps s m m' ts' c, race_free ps ->
  interleave p G s m (started ps) = Ok (m', ts') -> (forall a, In a ps -> ~ may_write a c) -> m' c = m c.
Proof.
  intros p G ps s m m' ts' c R H N. pose proof (started_isolated p G ps s m R) as I. rewrite H in I.
  destruct I as [_ I]. apply I. intros i [a [A W]]. exact (N a (nth_error_In _ _ A) W).
Qed.

Theorem threads_undefined : forall p G ps s m u, race_free ps -> interleave p G s m (started ps) = UB u ->
  exists a fuel, In a ps /\ pexec p G fuel m a = Some (UB u).
Proof.
  intros p G ps s m u R H. pose proof (started_isolated p G ps s m R) as I. rewrite H in I.
  destruct I as [i I]. unfold started in I. destruct (nth_error ps i) as [a|] eqn:E; [|rewrite solo_ended in I; discriminate I].
  pose proof (solo_whole p G (count i s) m a) as X. rewrite I in X. destruct X as [fuel X]. exists a, fuel. split; [|exact X].
  now apply nth_error_In in E.
Qed.

Theorem threads_deterministic : forall p G ps s1 s2 m m1 m2 ts1 ts2, race_free ps ->
  interleave p G s1 m (started ps) = Ok (m1, ts1) -> ended ts1 ->
  interleave p G s2 m (started ps) = Ok (m2, ts2) -> ended ts2 -> forall c, m1 c = m2 c.
Proof.
  intros p G ps s1 s2 m m1 m2 ts1 ts2 R H1 E1 H2 E2 c. destruct (Z.eq_dec (m1 c) (m2 c)) as [|N]; [assumption|exfalso].
  assert (U : forall a, In a ps -> ~ may_write a c).
  { intros a P W. apply In_nth_error in P as [i P].
    destruct (threads_isolated _ _ _ _ _ _ _ i a R P H1 (E1 i)) as [f1 [x [X1 A1]]].
    destruct (threads_isolated _ _ _ _ _ _ _ i a R P H2 (E2 i)) as [f2 [y [X2 A2]]].
    pose proof (pexec_unique _ _ _ _ _ _ _ _ X1 X2) as Q. injection Q as ->. apply N.
    rewrite A1, A2 by auto. reflexivity. }
  apply N. rewrite (threads_untouched _ _ _ _ _ _ _ c R H1 U), (threads_untouched _ _ _ _ _ _ _ c R H2 U). reflexivity.
Qed.

Theorem threads_progress : forall p G ps m i a fuel mi, race_free ps -> nth_error ps i = Some a ->
  (forall b fuel u, In b ps -> pexec p G fuel m b <> Some (UB u)) -> pexec p G fuel m a = Some (Ok mi) ->
  exists n, forall s, (n <= count_occ Nat.eq_dec s i)%nat -> exists m' ts', interleave p G s m (started ps) = Ok (m', ts') /\ ts' i = [].
Proof.
  intros p G ps m i a fuel mi R P N X. pose proof (pexec_solo p G fuel m a) as S. rewrite X in S. destruct S as [n S].
  exists n. intros s L. rewrite count_occ_count in L.
  destruct (interleave p G s m (started ps)) as [[m' ts']|u] eqn:H.
  - exists m', ts'. split; [reflexivity|]. pose proof (started_isolated p G ps s m R) as I. rewrite H in I.
    destruct I as [I _]. destruct (I i) as [m1 [A _]]. replace (count i s) with (n + (count i s - n))%nat in A by lia.
    rewrite solo_plus in A. unfold started in A. rewrite P, S in A. cbn [bind fst snd] in A. rewrite solo_ended in A. now injection A as <- <-.
  - exfalso. apply threads_undefined in H as [b [f [B H]]]; [|exact R]. exact (N b f u B H).
Qed.

Theorem threads_exact : forall o G ps s m m' ts' i a, output_canonical o = true -> wf_mem G m -> wf_pstmt o G a -> race_free ps ->
  nth_error ps i = Some a -> interleave (denote o) G s m (started ps) = Ok (m', ts') -> ts' i = [] ->
  exists fuel n, prun fuel m a = Some n /\ forall c, may_read a c \/ may_write a c -> m' c = n c.
Proof.
  intros o G ps s m m' ts' i a O W F R P H E. destruct (threads_isolated _ _ _ _ _ _ _ i a R P H E) as [fuel [mi [X A]]].
  pose proof (pexec_sim o G fuel m m a O W (fun _ => eq_refl) F) as M. rewrite X in M. destruct M as [n [Q [T _]]].
  exists fuel, n. split; [exact Q|]. intros c C. rewrite (A c C). apply T.
Qed.

Theorem threads_torn : forall p G m x y v w, x <> y -> frac_ty G x = frac_ty G y -> get_frac m x = v ->
  exists s m' ts', interleave p G s m (started [PAssign x (PLit (frac_ty G x) w); PCopyRaw y x]) = Ok (m', ts') /\ ended ts' /\
    get_frac m' x = w /\ get_frac m' y = mkRaw (num w) (den v).
Proof.
  intros p G m x y v w N T E. exists [0; 0; 1; 1; 1; 0]%nat. eexists. eexists. split.
  - unfold started. cbn [interleave tstep pfrac_eval pfrac_ty bind fst snd Nat.eqb stores app nth_error]. reflexivity.
  - split. { intros [|[|[|i]]]; reflexivity. }
    assert (C : forall t r, conv_raw t t r = r).
    { intros t r. unfold conv_raw. destruct (rep_eqb t t) eqn:B; [reflexivity|]. now rewrite rep_eqb_refl in B. }
    rewrite <- T. unfold f_convert. rewrite !C.
    unfold get_frac in *. subst v. unfold put. cbn [cell_eqb num den].
    rewrite !Nat.eqb_refl. destruct (Nat.eqb_spec x y); [contradiction|]. destruct (Nat.eqb_spec y x); [congruence|]. cbn [num den].
    destruct w. split; reflexivity.
Qed.

Theorem solo_iff : forall p G m a,
  (forall m', (exists n, solo p G n m [Do a] = Ok (m', [])) <-> exists fuel, pexec p G fuel m a = Some (Ok m')) /\
  (forall u, (exists n, solo p G n m [Do a] = UB u) <-> exists fuel, pexec p G fuel m a = Some (UB u)).
Proof.
  intros p G m a. split; intros x; (split; [intros [n H]; pose proof (solo_whole p G n m a) as X; rewrite H in X; exact X|]);
    intros [fuel H]; pose proof (pexec_solo p G fuel m a) as X; rewrite H in X; destruct X as [n X]; exists n; apply X.
Qed.

Theorem threads_every_moment : forall p G ps s m m' ts' i a, race_free ps -> nth_error ps i = Some a ->
  interleave p G s m (started ps) = Ok (m', ts') ->
  exists mi, solo p G (count_occ Nat.eq_dec s i) m [Do a] = Ok (mi, ts' i) /\
    forall c, may_read a c \/ may_write a c -> m' c = mi c.
Proof.
  intros p G ps s m m' ts' i a R P H. pose proof (started_isolated p G ps s m R) as I. rewrite H in I.
  destruct I as [I _]. destruct (I i) as [mi [S A]]. unfold started in S. rewrite P in S. rewrite count_occ_count.
  exists mi. split; [exact S|]. intros c C. symmetry. apply A. exists a. auto.
Qed.
