(** Specification for C97: policies built by stacking reduced_input and
    reduced_output any number of times, in any order. *)

From Coq Require Import ZArith List Bool.
From Verif Require Import Machine Raw Ops Fraction Spec Program.
Import ListNotations.
Open Scope Z_scope.

(** The policy at the bottom of the stack. *)
Fixpoint bottom (o : ops) : ops :=
  match o with
  | Safe => Safe
  | Fast => Fast
  | ReducedInput o _ | ReducedOutput o _ => bottom o
  end.

(** The modes of the input layers and of the output layers. *)
Fixpoint input_modes (o : ops) : list reduce_mode :=
  match o with
  | Safe | Fast => []
  | ReducedInput o m => m :: input_modes o
  | ReducedOutput o _ => input_modes o
  end.
Fixpoint output_modes (o : ops) : list reduce_mode :=
  match o with
  | Safe | Fast => []
  | ReducedInput o _ => output_modes o
  | ReducedOutput o m => m :: output_modes o
  end.

(** No layer, only layers that keep signs, or at least one that normalises them. *)
Inductive layer : Type := Absent | Keeping | Normalising.
Definition effect (ms : list reduce_mode) : layer :=
  if existsb (fun m => match m with normalize_signs_mode => true | ignore_signs_mode => false end) ms then Normalising
  else match ms with [] => Absent | _ => Keeping end.

(** The eighteen policies: at most one layer of each kind. *)
Definition add_input (l : layer) (o : ops) : ops :=
  match l with
  | Absent => o
  | Keeping => ReducedInput o ignore_signs_mode
  | Normalising => ReducedInput o normalize_signs_mode
  end.
Definition add_output (l : layer) (o : ops) : ops :=
  match l with
  | Absent => o
  | Keeping => ReducedOutput o ignore_signs_mode
  | Normalising => ReducedOutput o normalize_signs_mode
  end.
Definition one_of_18 (b : bool) (i u : layer) : ops :=
  add_input i (add_output u (if b then Safe else Fast)).
Definition collapsed (o : ops) : ops :=
  add_input (effect (input_modes o)) (add_output (effect (output_modes o)) (bottom o)).

(** The same outcome, undefined behaviour included, for all operands of a type. *)
Definition same_policy (o o' : ops) : Prop := forall t, wf_rep t ->
  (forall op a, wf_args t a -> p_arith (denote o) t op a = p_arith (denote o') t op a) /\
  (forall op a, wf_args t a -> p_cmp (denote o) t op a = p_cmp (denote o') t op a) /\
  (forall v, wf_raw t v -> p_negate (denote o) t v = p_negate (denote o') t v).

(** The same results and the same definedness: all that a run can show. *)
Definition indistinguishable (o o' : ops) : Prop := forall t, wf_rep t ->
  (forall op a r, wf_args t a -> (p_arith (denote o) t op a = Ok r <-> p_arith (denote o') t op a = Ok r)) /\
  (forall op a b, wf_args t a -> (p_cmp (denote o) t op a = Ok b <-> p_cmp (denote o') t op a = Ok b)) /\
  (forall v r, wf_raw t v -> (p_negate (denote o) t v = Ok r <-> p_negate (denote o') t v = Ok r)).

(** Programs over any representations: constants are values of their types, and
    each variable holds a value of its type.  Narrowing assignments, unsigned types
    and undefined or unreduced constants are allowed. *)
Definition plain_i (i : iexpr) : Prop :=
  match i with IConst s z => wf_rep s /\ in_rep s z = true | _ => True end.
Fixpoint plain_f (e : fexpr) : Prop :=
  match e with
  | EVar _ => True
  | ELit t r => wf_rep t /\ wf_raw t r
  | EOfInt i => plain_i i
  | EPos e | ENeg e | EAbs e | EReduce e => plain_f e
  | EBin _ l r => plain_f l /\ plain_f r
  | EBinInt _ l i => plain_f l /\ plain_i i
  | EIntBin _ i r => plain_i i /\ plain_f r
  end.
Fixpoint plain_b (b : bexpr) : Prop :=
  match b with
  | BCmp _ l r => plain_f l /\ plain_f r
  | BCmpInt _ l i => plain_f l /\ plain_i i
  | BIntCmp _ i r => plain_i i /\ plain_f r
  | BNot b => plain_b b
  | BAnd a b | BOr a b => plain_b a /\ plain_b b
  end.
Fixpoint plain_s (c : stmt) : Prop :=
  match c with
  | SSkip => True
  | SAssign _ e | SOpAssign _ _ e => plain_f e
  | SOpAssignInt _ _ i => plain_i i
  | SSeq a b => plain_s a /\ plain_s b
  | SIf b x y => plain_b b /\ plain_s x /\ plain_s y
  | SWhile b x => plain_b b /\ plain_s x
  end.
Definition plain_store (ty : nat -> rep) (s : store) : Prop :=
  forall x, wf_rep (ty x) /\ wf_raw (ty x) (s x).
