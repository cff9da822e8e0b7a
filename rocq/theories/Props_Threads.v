(** Property theorems: threads.

    Each is closed by the lemma of the same name in Threads_claims.v. *)

From Coq Require Import ZArith List Bool Lia Arith.
From Verif Require Import Machine Raw Ops Spec Fraction Mixed_spec Parts Parts_spec Threads Threads_spec Threads_proofs.
Import ListNotations.
Open Scope Z_scope.
From Verif Require Import Threads_claims.

(** C123: under any policy and any schedule, threads without data races do not disturb each
    other: one that has ended leaves in every object it can touch what it leaves there when
    it runs alone. *)
Theorem C123_isolated : forall p G ps s m m' ts' i a, race_free ps -> nth_error ps i = Some a ->
  interleave p G s m (started ps) = Ok (m', ts') -> ts' i = [] ->
  exists fuel mi, pexec p G fuel m a = Some (Ok mi) /\
    forall c, may_read a c \/ may_write a c -> m' c = mi c.
Proof. exact c123_isolated. Qed.
Print Assumptions C123_isolated.

(** C123: this is so at every moment, not only in the end: after its first steps a thread is
    where as many steps alone take it, and sees what it would see there. *)
Theorem C123_every_moment : forall p G ps s m m' ts' i a, race_free ps -> nth_error ps i = Some a ->
  interleave p G s m (started ps) = Ok (m', ts') ->
  exists mi, solo p G (count_occ Nat.eq_dec s i) m [Do a] = Ok (mi, ts' i) /\
    forall c, may_read a c \/ may_write a c -> m' c = mi c.
Proof. exact c123_every_moment. Qed.
Print Assumptions C123_every_moment.

(** C123: alone, step by step, a program does what its statements do. *)
Theorem C123_alone : forall p G m a,
  (forall m', (exists n, solo p G n m [Do a] = Ok (m', [])) <-> exists fuel, pexec p G fuel m a = Some (Ok m')) /\
  (forall u, (exists n, solo p G n m [Do a] = UB u) <-> exists fuel, pexec p G fuel m a = Some (UB u)).
Proof. exact c123_alone. Qed.
Print Assumptions C123_alone.

(** C123: so, under a policy that returns lowest terms, it leaves what exact arithmetic
    leaves (see C121). *)
Theorem C123_exact : forall o G ps s m m' ts' i a, output_canonical o = true -> wf_mem G m -> wf_pstmt o G a -> race_free ps ->
  nth_error ps i = Some a -> interleave (denote o) G s m (started ps) = Ok (m', ts') -> ts' i = [] ->
  exists fuel n, prun fuel m a = Some n /\ forall c, may_read a c \/ may_write a c -> m' c = n c.
Proof. exact c123_exact. Qed.
Print Assumptions C123_exact.

(** C123: an object that no thread writes, a constant shared by all of them for instance,
    keeps its contents, at every moment. *)
Theorem C123_untouched : forall p G ps s m m' ts' c, race_free ps ->
  interleave p G s m (started ps) = Ok (m', ts') -> (forall a, In a ps -> ~ may_write a c) -> m' c = m c.
Proof. exact c123_untouched. Qed.
Print Assumptions C123_untouched.

(** C123: the schedule does not matter: all that end every thread leave the same memory. *)
Theorem C123_deterministic : forall p G ps s1 s2 m m1 m2 ts1 ts2, race_free ps ->
  interleave p G s1 m (started ps) = Ok (m1, ts1) -> ended ts1 ->
  interleave p G s2 m (started ps) = Ok (m2, ts2) -> ended ts2 -> forall c, m1 c = m2 c.
Proof. exact c123_deterministic. Qed.
Print Assumptions C123_deterministic.

(** C123: no behaviour is undefined that is not so in one thread alone. *)
Theorem C123_undefined : forall p G ps s m u, race_free ps -> interleave p G s m (started ps) = UB u ->
  exists a fuel, In a ps /\ pexec p G fuel m a = Some (UB u).
Proof. exact c123_undefined. Qed.
Print Assumptions C123_undefined.

(** C123: a thread that ends alone ends in every schedule that gives it enough steps,
    whatever the others do, if none of them has undefined behaviour. *)
Theorem C123_progress : forall p G ps m i a fuel mi, race_free ps -> nth_error ps i = Some a ->
  (forall b fuel u, In b ps -> pexec p G fuel m b <> Some (UB u)) -> pexec p G fuel m a = Some (Ok mi) ->
  exists n, forall s, (n <= count_occ Nat.eq_dec s i)%nat -> exists m' ts', interleave p G s m (started ps) = Ok (m', ts') /\ ts' i = [].
Proof. exact c123_progress. Qed.
Print Assumptions C123_progress.

(** Two threads, x -= c and y *= c with the constant c shared, in two schedules; and one
    more, which divides an integer by 0. *)
Example C123_nonvacuous :
  let a := PCompound Minus 0 (PVar 2) in
  let b := PCompound Multiplies 1 (PVar 2) in
  let m := fun c => match c with NumOf O => 1 | DenOf O => 2 | NumOf (S O) => 2 | DenOf (S O) => 3 | NumOf _ => 1 | DenOf _ => 4 | _ => 0 end in
  let G := mkTypes (fun _ => int32) (fun _ => int32) in
  let p := denote (ReducedOutput Safe normalize_signs_mode) in
  race_free [a; b] /\ wf_mem G m /\ wf_pstmt (ReducedOutput Safe normalize_signs_mode) G a /\
  wf_pstmt (ReducedOutput Safe normalize_signs_mode) G b /\
  (match interleave p G [0; 1; 1; 0; 0; 1]%nat m (started [a; b]) with
   | Ok (m', ts') => ended ts' /\ get_frac m' 0 = mkRaw 1 4 /\ get_frac m' 1 = mkRaw 1 6 /\ get_frac m' 2 = mkRaw 1 4
   | UB _ => False
   end) /\
  (match interleave p G [1; 1; 1; 0; 0; 0]%nat m (started [a; b]) with Ok (m', ts') => ended ts' | UB _ => False end) /\
  interleave p G [0; 2]%nat m (started [a; b; PUpdate Divides (IntVar 0) (PConst int32 0)]) = UB DivByZero.
Proof.
  cbv zeta. split; [|split; [|split; [|split; [|split; [|split]]]]].
  - intros [|[|[|i]]] [|[|[|j]]] x y c N X Y; cbn in X, Y; try discriminate; try congruence;
      injection X as <-; injection Y as <-; cbn; unfold part_of; intuition congruence.
  - intros [[|[|i]]|[|[|i]]|i]; split; try reflexivity; vm_compute; intuition congruence.
  - vm_compute. intuition congruence.
  - vm_compute. intuition congruence.
  - vm_compute. split; [intros [|[|[|i]]]; reflexivity|]. split; [|split]; reflexivity.
  - vm_compute. intros [|[|[|i]]]; reflexivity.
  - vm_compute. reflexivity.
Qed.

(** C123: an assignment is not one step: a thread that reads a fraction while another one
    assigns to it can find the new numerator over the old denominator. *)
Theorem C123_torn_refuted : forall p G m x y v w, x <> y -> frac_ty G x = frac_ty G y -> get_frac m x = v ->
  exists s m' ts', interleave p G s m (started [PAssign x (PLit (frac_ty G x) w); PCopyRaw y x]) = Ok (m', ts') /\ ended ts' /\
    get_frac m' x = w /\ get_frac m' y = mkRaw (num w) (den v).
Proof. exact c123_torn_refuted. Qed.
Print Assumptions C123_torn_refuted.

(** 3/4 is assigned to a variable that holds 1/2, and 3/2 is read. *)
Example C123_torn_nonvacuous :
  let G := mkTypes (fun _ => int32) (fun _ => int32) in
  let m := fun c => match c with NumOf _ => 1 | DenOf _ => 2 | _ => 0 end in
  0%nat <> 1%nat /\ frac_ty G 0 = frac_ty G 1 /\ get_frac m 0 = mkRaw 1 2 /\
  match interleave (denote Safe) G [0; 0; 1; 1; 1; 0]%nat m (started [PAssign 0 (PLit int32 (mkRaw 3 4)); PCopyRaw 1 0]) with
  | Ok (m', ts') => ended ts' /\ get_frac m' 0 = mkRaw 3 4 /\ get_frac m' 1 = mkRaw 3 2
  | UB _ => False
  end.
Proof.
  cbv zeta. split; [discriminate|]. split; [reflexivity|]. split; [reflexivity|].
  vm_compute. split; [intros [|[|[|i]]]; reflexivity|]. split; reflexivity.
Qed.
