(** Proofs of the statements in Props_Wide.v. *)

From Coq Require Import String ZArith QArith List Bool Lia.
From Verif Require Import Machine Raw Ops Spec Fraction Fmath Mixed Mixed_spec MixDef_spec Chrono Chrono_spec Chrono2 Parse Parse_spec Program Wide_spec.
From Verif Require Import Machine_proofs Wide_proofs.
Import ListNotations.
Open Scope Z_scope.

Lemma c92_arith : forall o t u op a r, wider t u ->
  p_arith (denote o) t op a = Ok r -> p_arith (denote o) u op a = Ok r.
Proof. exact x_p_arith. Qed.

Lemma c92_comparison : forall o t u op a b, wider t u ->
  p_cmp (denote o) t op a = Ok b -> p_cmp (denote o) u op a = Ok b.
Proof. exact x_p_cmp. Qed.

Lemma c92_unary : forall o t u v, wider t u ->
  (forall r, f_negate (denote o) t v = Ok r -> f_negate (denote o) u v = Ok r) /\
  (forall r, f_abs (denote o) t v = Ok r -> f_abs (denote o) u v = Ok r) /\
  (forall m r, reduce t v m = Ok r -> reduce u v m = Ok r).
Proof. intros o t u v H. split; [|split]; intros; [eapply x_p_negate|eapply x_abs|eapply x_reduce]; eauto. Qed.

Lemma c92_queries : forall t u v b, wider t u ->
  (is_integer t v = Ok b -> is_integer u v = Ok b) /\
  (is_unit_fraction t v = Ok b -> is_unit_fraction u v = Ok b) /\
  (is_reduced t v = Ok b -> is_reduced u v = Ok b) /\
  (is_proper t v = Ok b -> is_proper u v = Ok b) /\
  (is_improper t v = Ok b -> is_improper u v = Ok b).
Proof.
  intros t u v b H. repeat split; intros E;
    [eapply x_is_integer|eapply x_is_unit|eapply x_is_reduced|eapply x_is_proper|eapply x_is_improper]; eauto.
Qed.

Lemma c92_to_whole : forall o t u v m k, wider t u ->
  f_to_whole (denote o) t v m = Ok k -> f_to_whole (denote o) u v m = Ok k.
Proof. exact x_to_whole. Qed.

Lemma c92_redenominate : forall o t u v d m r, wider t u ->
  f_redenominate (denote o) t v d m = Ok r -> f_redenominate (denote o) u v d m = Ok r.
Proof. exact x_redenominate. Qed.

Lemma c92_pow : forall t u base exponent r, wider t u -> in_rep int32 exponent = true ->
  f_pow t base exponent = Ok r -> f_pow u base exponent = Ok r.
Proof. exact x_pow. Qed.

Lemma c92_pow2_refuted : exists t u e x y, wider t u /\ in_rep int32 e = true /\
  f_pow2 t e = Ok x /\ f_pow2 u e = Ok y /\ x <> y.
Proof.
  exists int32, int64, 31, (mkRaw (-2147483648) 1), (mkRaw 2147483648 1).
  split; [repeat split; vm_compute; congruence|]. repeat split; try (vm_compute; reflexivity). congruence.
Qed.

Lemma c92_unsigned_refuted : exists t u a x y, rsigned t = false /\ rsigned u = false /\ rbits t <= rbits u /\
  p_arith (denote defaults) t Minus a = Ok x /\ p_arith (denote defaults) u Minus a = Ok y /\ x <> y.
Proof.
  exists uint32, uint64, (RR (mkRaw 1 1) (mkRaw 2 1)), (mkRaw 4294967295 1), (mkRaw 18446744073709551615 1).
  repeat split; try (vm_compute; congruence).
Qed.

Lemma c92_expression : forall o t u e v, wider t u -> eval (denote o) t e = Ok v -> eval (denote o) u e = Ok v.
Proof. exact x_eval. Qed.

Lemma c92_literal : forall o t u s r, wider t u -> Z.of_nat (length s) <= 2147483647 ->
  string_to_fraction (denote o) t s = Ok r -> string_to_fraction (denote o) u s = Ok r.
Proof. exact x_string. Qed.

Lemma c92_mixed : forall o t u e m, wider t u -> typed t e ->
  meval (denote o) e = Ok m -> meval (denote o) (retype u e) = Ok m.
Proof. exact x_meval. Qed.

Lemma c92_mixed_to_fraction : forall o t u m r, wider t u -> wf_mixed t t m ->
  mixed_as_fraction (denote o) t t m = Ok r -> mixed_as_fraction (denote o) u u m = Ok r.
Proof. intros o t u m r H W. apply x_as_fraction; auto. apply W. Qed.

Lemma c92_duration_cast : forall o t u from to c r, wider t u -> 64 <= rbits t -> wf_count t c ->
  duration_cast (denote o) t from to c = Some (Ok r) -> duration_cast (denote o) u from to c = Some (Ok r).
Proof. intros o t u a b c r H L F E. eapply x_duration_cast; eauto. Qed.

Lemma c92_duration_arith : forall o t u op pl pr l r pc v, wider t u -> 64 <= rbits t -> wf_count t l -> wf_count t r ->
  duration_arith (denote o) t op pl pr l r = Some (pc, Ok v) -> duration_arith (denote o) u op pl pr l r = Some (pc, Ok v).
Proof. exact x_duration_arith. Qed.

Lemma c92_duration_comparison : forall o t u pl pr l r v, wider t u -> 64 <= rbits t -> wf_count t l -> wf_count t r ->
  (duration_eq (denote o) t pl pr l r = Some (Ok v) -> duration_eq (denote o) u pl pr l r = Some (Ok v)) /\
  (duration_lt (denote o) t pl pr l r = Some (Ok v) -> duration_lt (denote o) u pl pr l r = Some (Ok v)) /\
  (duration_le (denote o) t pl pr l r = Some (Ok v) -> duration_le (denote o) u pl pr l r = Some (Ok v)).
Proof.
  intros o t u a b l r v H L Fl Fr. split; [|split]; intros E;
    [eapply x_duration_eq|eapply x_duration_lt|eapply x_duration_le]; eauto.
Qed.

Lemma c92_duration_rounding : forall o t u from to c v, wider t u -> 64 <= rbits t -> wf_count t c ->
  (duration_floor (denote o) t from to c = Some (Ok v) -> duration_floor (denote o) u from to c = Some (Ok v)) /\
  (duration_ceil (denote o) t from to c = Some (Ok v) -> duration_ceil (denote o) u from to c = Some (Ok v)).
Proof. intros o t u a b c v H L F. split; intros E; [eapply x_duration_floor|eapply x_duration_ceil]; eauto. Qed.

Lemma c92_program : forall o ty ty' fuel s c s', wider_all ty ty' -> typed_store ty s -> static_s ty c ->
  exec (denote o) ty fuel s c = Some (Ok s') -> exec (denote o) ty' fuel s c = Some (Ok s').
Proof. intros o ty ty' fuel s c s' W T S E. eapply x_exec; eauto. Qed.

Lemma c92_narrowing_refuted : exists ty ty' s c x y, wider_all ty ty' /\ typed_store ty s /\
  exec (denote defaults) ty 2 s c = Some (Ok x) /\ exec (denote defaults) ty' 2 s c = Some (Ok y) /\ x 0%nat <> y 0%nat.
Proof.
  exists (fun _ => int32), (fun _ => int64), (fun _ => mkRaw 0 1), (SAssign 0 (ELit int64 (mkRaw 4294967296 1))).
  eexists. eexists. split; [intros x; repeat split; vm_compute; congruence|].
  split; [intros x; repeat split; vm_compute; congruence|]. split; [reflexivity|]. split; [reflexivity|]. vm_compute. congruence.
Qed.

