(** Property theorems: a duration changed step by step does not drift.

    Each is closed by the lemma of the same name in Timer_claims.v. *)

From Coq Require Import ZArith QArith List Bool Lia Lqa Permutation.
From Verif Require Import Machine Raw Ops Spec Fraction Mixed_spec Chrono Chrono2 Chrono_spec Sums_spec Timer Timer_spec.
From Verif Require Import Machine_proofs Value_proofs Algebra_proofs Literals_proofs Chrono_proofs Timer_proofs.
Import ListNotations.
Open Scope Z_scope.
From Verif Require Import Timer_claims.

(** C103: after any number of compound assignments with durations of any periods and
    with fractions, whatever the policy, the number of seconds is what the same steps
    give in exact arithmetic; with a policy that reduces its results, the count is
    also in lowest terms. *)
Theorem C103_exact : forall o t pl l ss x,
  signed_rep t -> 64 <= rbits t -> wf_period pl -> wf_raw t l -> Forall (wf_step t) ss ->
  run_steps (denote o) t pl l ss = Some (Ok x) ->
  same_value (seconds (value x) pl) (all_seconds (seconds (value l) pl) ss) /\
  (output_canonical o = true -> ss <> [] -> canonical x).
Proof. exact c103_exact. Qed.
Print Assumptions C103_exact.

(** C103: durations added in two different orders give the same count, bit for bit. *)
Theorem C103_order : forall o t pl l ss ss' x x',
  signed_rep t -> 64 <= rbits t -> wf_period pl -> wf_raw t l -> value l <> None -> output_canonical o = true ->
  Forall (wf_step t) ss -> Forall adds ss -> Permutation ss ss' ->
  run_steps (denote o) t pl l ss = Some (Ok x) -> run_steps (denote o) t pl l ss' = Some (Ok x') -> x = x'.
Proof. exact c103_order. Qed.
Print Assumptions C103_order.

(** C103: adding durations gives the start plus their exact sum. *)
Theorem C103_sum : forall o t pl l ss x q,
  signed_rep t -> 64 <= rbits t -> wf_period pl -> wf_raw t l -> value l = Some q ->
  Forall (wf_step t) ss -> Forall adds ss ->
  run_steps (denote o) t pl l ss = Some (Ok x) ->
  same_value (seconds (value x) pl) (Some (q * period_value pl + total_added ss)%Q).
Proof. exact c103_sum. Qed.
Print Assumptions C103_sum.

(** C103: a tick added n times moves the duration by exactly n ticks. *)
Theorem C103_ticks : forall o t pl l pd c n x q k,
  signed_rep t -> 64 <= rbits t -> wf_period pl -> wf_raw t l -> value l = Some q ->
  wf_period pd -> wf_count t c -> count_value c = Some k ->
  run_steps (denote o) t pl l (repeat (Move Plus pd c) n) = Some (Ok x) ->
  same_value (seconds (value x) pl) (Some (q * period_value pl + inject_Z (Z.of_nat n) * (k * period_value pd))%Q).
Proof. exact c103_ticks. Qed.
Print Assumptions C103_ticks.

(** C103: with a policy on the safe operations nothing overflows as long as the running
    total, over a common denominator of the converted counts, is representable. *)
Theorem C103_total : forall o t pl ss vs ns l n D,
  built_on_safe o = true -> signed_rep t -> 0 < D <= rmax t ->
  Forall2 (fun s v => exists pd c, s = Move Plus pd c /\ duration_cast (denote o) t pd pl c = Some (Ok v) /\ wf_raw t v) ss vs ->
  over D n l -> Forall2 (over D) ns vs -> partial_sums_fit (rmax t) n ns ->
  exists x, run_steps (denote o) t pl l ss = Some (Ok x) /\
    same_value (value x) (Some (inject_Z (n + zsum ns) / inject_Z D)%Q).
Proof. exact c103_total. Qed.
Print Assumptions C103_total.

(** C103: so a clock counting from zero can tick until the count itself overflows. *)
Theorem C103_clock : forall o t pl pd c v k D n,
  built_on_safe o = true -> signed_rep t -> 0 < D <= rmax t ->
  duration_cast (denote o) t pd pl c = Some (Ok v) -> wf_raw t v -> over D k v -> Z.of_nat (S n) * Z.abs k <= rmax t ->
  exists x, run_steps (denote o) t pl (mkRaw 0 1) (repeat (Move Plus pd c) (S n)) = Some (Ok x) /\
    same_value (value x) (Some (inject_Z (Z.of_nat (S n) * k) / inject_Z D)%Q).
Proof. exact c103_clock. Qed.
Print Assumptions C103_clock.

Example C103_nonvacuous :
  (* a metronome at 90 beats a minute, counting minutes: 2/3 s per beat, 135 beats *)
  run_steps (denote defaults) int64 (mkPeriod 60 1) (mkRaw 0 1) (repeat (Move Plus (mkPeriod 1 1) (FracCount (mkRaw 2 3))) 135)
    = Some (Ok (mkRaw 3 2)) /\
  duration_cast (denote defaults) int64 (mkPeriod 1 1) (mkPeriod 60 1) (FracCount (mkRaw 2 3)) = Some (Ok (mkRaw 1 90)) /\
  over 90 1 (mkRaw 1 90) /\
  (* 1/2 minute, minus 7 ms, times 3/7, modulo 10 s, over 5/2 *)
  run_steps (denote defaults) int64 (mkPeriod 60 1) (mkRaw 1 2)
    [Move Minus (mkPeriod 1 1000) (IntCount int64 7); Scale Multiplies (mkRaw 3 7); Move Modulus (mkPeriod 10 1) (IntCount int64 1);
     Scale Divides (mkRaw 5 2)] = Some (Ok (mkRaw 19979 1050000)) /\
  Forall (wf_step int64)
    [Move Minus (mkPeriod 1 1000) (IntCount int64 7); Scale Multiplies (mkRaw 3 7); Move Modulus (mkPeriod 10 1) (IntCount int64 1);
     Scale Divides (mkRaw 5 2)] /\
  all_seconds (Some (30 # 1)) [Move Minus (mkPeriod 1 1000) (IntCount int64 7); Scale Multiplies (mkRaw 3 7)] <> None /\
  (* two orders *)
  run_steps (denote defaults) int64 (mkPeriod 1 1) (mkRaw 1 3)
    [Move Plus (mkPeriod 1 60) (IntCount int64 1); Move Plus (mkPeriod 1 1000) (IntCount int64 7)] =
  run_steps (denote defaults) int64 (mkPeriod 1 1) (mkRaw 1 3)
    [Move Plus (mkPeriod 1 1000) (IntCount int64 7); Move Plus (mkPeriod 1 60) (IntCount int64 1)] /\
  signed_rep int64 /\ built_on_safe defaults = true /\ output_canonical defaults = true.
Proof.
  split; [vm_compute; reflexivity|]. split; [vm_compute; reflexivity|].
  split; [split; [cbn; lia|now exists 1]|]. split; [vm_compute; reflexivity|].
  split; [|split; [vm_compute; discriminate|split; [vm_compute; reflexivity|repeat split; vm_compute; congruence]]].
  unfold wf_raw, wf_period. repeat constructor; cbn; auto; try lia; vm_compute; intuition congruence.
Qed.
