(** Proofs of the statements in Props_Threads.v. *)

From Coq Require Import ZArith List Bool Lia Arith.
From Verif Require Import Machine Raw Ops Spec Fraction Mixed_spec Parts Parts_spec Threads Threads_spec Threads_proofs.
Import ListNotations.
Open Scope Z_scope.
Lemma c123_isolated : forall p G ps s m m' ts' i a, race_free ps -> nth_error ps i = Some a ->
  interleave p G s m (started ps) = Ok (m', ts') -> ts' i = [] ->
  exists fuel mi, pexec p G fuel m a = Some (Ok mi) /\
    forall c, may_read a c \/ may_write a c -> m' c = mi c.
Proof.
  exact threads_isolated.
Qed.

Lemma c123_every_moment : forall p G ps s m m' ts' i a, race_free ps -> nth_error ps i = Some a ->
  interleave p G s m (started ps) = Ok (m', ts') ->
  exists mi, solo p G (count_occ Nat.eq_dec s i) m [Do a] = Ok (mi, ts' i) /\
    forall c, may_read a c \/ may_write a c -> m' c = mi c.
Proof.
  exact threads_every_moment.
Qed.

Lemma c123_alone : forall p G m a,
  (forall m', (exists n, solo p G n m [Do a] = Ok (m', [])) <-> exists fuel, pexec p G fuel m a = Some (Ok m')) /\
  (forall u, (exists n, solo p G n m [Do a] = UB u) <-> exists fuel, pexec p G fuel m a = Some (UB u)).
Proof.
  exact solo_iff.
Qed.

Lemma c123_exact : forall o G ps s m m' ts' i a, output_canonical o = true -> wf_mem G m -> wf_pstmt o G a -> race_free ps ->
  nth_error ps i = Some a -> interleave (denote o) G s m (started ps) = Ok (m', ts') -> ts' i = [] ->
  exists fuel n, prun fuel m a = Some n /\ forall c, may_read a c \/ may_write a c -> m' c = n c.
Proof.
  exact threads_exact.
Qed.

Lemma c123_untouched : forall p G ps s m m' ts' c, race_free ps ->
  interleave p G s m (started ps) = Ok (m', ts') -> (forall a, In a ps -> ~ may_write a c) -> m' c = m c.
Proof.
  exact threads_untouched.
Qed.

Lemma c123_deterministic : forall p G ps s1 s2 m m1 m2 ts1 ts2, race_free ps ->
  interleave p G s1 m (started ps) = Ok (m1, ts1) -> ended ts1 ->
  interleave p G s2 m (started ps) = Ok (m2, ts2) -> ended ts2 -> forall c, m1 c = m2 c.
Proof.
  exact threads_deterministic.
Qed.

Lemma c123_undefined : forall p G ps s m u, race_free ps -> interleave p G s m (started ps) = UB u ->
  exists a fuel, In a ps /\ pexec p G fuel m a = Some (UB u).
Proof.
  exact threads_undefined.
Qed.

Lemma c123_progress : forall p G ps m i a fuel mi, race_free ps -> nth_error ps i = Some a ->
  (forall b fuel u, In b ps -> pexec p G fuel m b <> Some (UB u)) -> pexec p G fuel m a = Some (Ok mi) ->
  exists n, forall s, (n <= count_occ Nat.eq_dec s i)%nat -> exists m' ts', interleave p G s m (started ps) = Ok (m', ts') /\ ts' i = [].
Proof.
  exact threads_progress.
Qed.

Lemma c123_torn_refuted : forall p G m x y v w, x <> y -> frac_ty G x = frac_ty G y -> get_frac m x = v ->
  exists s m' ts', interleave p G s m (started [PAssign x (PLit (frac_ty G x) w); PCopyRaw y x]) = Ok (m', ts') /\ ended ts' /\
    get_frac m' x = w /\ get_frac m' y = mkRaw (num w) (den v).
Proof.
  exact threads_torn.
Qed.

