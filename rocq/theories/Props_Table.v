(** Property theorems: fractions as keys of hash tables.

    Each is closed by the lemma of the same name in Table_claims.v. *)

From Coq Require Import ZArith QArith List Bool Lia.
From Verif Require Import Machine Raw Ops Spec Fraction Hash Table Table_spec.
From Verif Require Import Machine_proofs Value_proofs Ops_proofs Algebra_proofs Fraction_proofs Literals_proofs Cmp_claims Table_proofs.
Import ListNotations.
Open Scope Z_scope.
From Verif Require Import Table_claims.

(** C105: a hash table whose keys are defined fractions in lowest terms is a set of
    rationals: after any insertions, erasures and rehashes, whatever the hash of the
    integral type, the policy and the number of buckets, it contains a key exactly
    when the set contains its value. *)
Theorem C105_set : forall h o t n l T k b q,
  wf_rep t -> rsigned t = true -> Forall (keys t) l -> key t k -> value k = Some q ->
  act_all h (denote o) t (empty_table (S n)) l = Ok T ->
  contains h (denote o) t T k = Ok b -> (b = true <-> set_of l q).
Proof. exact c105_set. Qed.
Print Assumptions C105_set.

(** C105: iterating over the table meets each member of the set exactly once. *)
Theorem C105_iterate : forall h o t n l T,
  wf_rep t -> rsigned t = true -> Forall (keys t) l ->
  act_all h (denote o) t (empty_table (S n)) l = Ok T ->
  (forall q, set_of l q <-> exists v, In v (elements T) /\ is v q) /\
  (forall v, In v (elements T) -> key t v) /\
  (forall a b v w, nth_error (elements T) a = Some v -> nth_error (elements T) b = Some w ->
     same_value (value v) (value w) -> a = b).
Proof. exact c105_iterate. Qed.
Print Assumptions C105_iterate.

(** C105: with keys small enough for the integral type the whole history, and the
    lookup after it, is defined. *)
Theorem C105_defined : forall h o t n l B k,
  wf_rep t -> rsigned t = true -> Forall (keys t) l -> Forall (small_keys B) l -> B <= rmax t -> B * B <= rmax t ->
  key t k -> Z.abs (num k) <= B -> Z.abs (den k) <= B ->
  exists T b, act_all h (denote o) t (empty_table (S n)) l = Ok T /\ contains h (denote o) t T k = Ok b.
Proof. exact c105_defined. Qed.
Print Assumptions C105_defined.

(** C105: that the keys are in lowest terms is necessary, since the hash depends on the
    form: a table of the standard library's hash that contains 1/2 does not find 2/4,
    which compares equal to it, and takes it as a second element.  Nor can an undefined
    key ever be found, so each insertion adds another. *)
Theorem C105_unreduced_refuted :
  f_cmp (denote defaults) int32 int32 Eq (RR (mkRaw 1 2) (mkRaw 2 4)) = Ok true /\
  exists T, act_all std_hash (denote defaults) int32 (empty_table 8) [Insert (mkRaw 1 2)] = Ok T /\
  contains std_hash (denote defaults) int32 T (mkRaw 2 4) = Ok false /\
  exists T', insert std_hash (denote defaults) int32 T (mkRaw 2 4) = Ok T' /\ length (elements T') = 2%nat.
Proof. exact c105_unreduced_refuted. Qed.
Print Assumptions C105_unreduced_refuted.

Theorem C105_undefined : forall h o t T k,
  wf_rep t -> rsigned t = true -> wf_raw t k -> value k = None ->
  (forall i v, In v (bucket T i) -> wf_raw t v) ->
  contains h (denote o) t T k <> Ok true /\
  (forall T', insert h (denote o) t T k = Ok T' -> bucket T' (slot h (buckets T) k) = k :: bucket T (slot h (buckets T) k)).
Proof. exact c105_undefined. Qed.
Print Assumptions C105_undefined.

Example C105_nonvacuous :
  let l := [Insert (mkRaw 1 2); Insert (mkRaw (-3) 4); Insert (mkRaw 1 2); Rehash 4; Erase (mkRaw (-3) 4); Insert (mkRaw 5 1)] in
  Forall (keys int32) l /\ Forall (small_keys 1000) l /\ set_of l (1 # 2) /\
  match act_all std_hash (denote defaults) int32 (empty_table 3) l with
  | Ok T => length (elements T) = 2%nat /\ contains std_hash (denote defaults) int32 T (mkRaw 1 2) = Ok true /\
            contains std_hash (denote defaults) int32 T (mkRaw (-3) 4) = Ok false
  | UB _ => False
  end.
Proof.
  cbn zeta. split; [|split; [|split]].
  - repeat (apply Forall_cons; [|]); try apply Forall_nil; cbn [keys]; try exact I;
      (split; [split; split; vm_compute; discriminate|split; [right; split; reflexivity|discriminate]]).
  - repeat (apply Forall_cons; [|]); try apply Forall_nil; cbn; try exact I; lia.
  - left. split; [|intros (x & E & Q); injection E as <-; discriminate Q].
    left. left. right. exists (1 # 2). split; reflexivity.
  - vm_compute. repeat split.
Qed.
