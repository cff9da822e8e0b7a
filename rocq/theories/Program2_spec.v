(** When a client program suits a policy that does not return lowest terms.
    The meaning of a program over the rationals is that of [Program_spec]; here
    are only conditions on the program's text and on its initial memory. *)

From Coq Require Import ZArith QArith Bool.
From Verif Require Import Machine Raw Ops Fraction Spec Mixed_spec Program Program_spec.
Open Scope Z_scope.

(** The program reads no numerator and no denominator: these depend on how a
    value is represented. *)
Definition opaque_i (i : iexpr) : Prop :=
  match i with
  | IConst s z => signed_rep s /\ in_rep s z = true
  | ITrunc _ => True
  | INum _ | IDen _ => False
  end.

(** [pos]: all fractions of the program have positive denominators, which
    requires that it never divides: the sign of a divisor becomes that of a
    denominator. *)
Definition sign_ok (pos : bool) (r : raw) : Prop := pos = true -> 0 < den r.
Definition arith_suits (o : ops) (pos : bool) (op : arith_op) : Prop :=
  op <> Divides \/ (pos = false /\ reduces_inputs o = true).

(** == and != suit always.  The order of two fractions suits [safe], any policy
    that normalises the signs of its inputs, and positive denominators; the
    order of a fraction and an integer suits the latter two. *)
Definition is_order (op : cmp_op) : bool :=
  match op with Eq | Ne => false | _ => true end.
Definition cmp_suits (o : ops) (pos : bool) (op : cmp_op) : Prop :=
  is_order op = true -> pos = true \/ normalises_inputs o = true \/ built_on_safe o = true.
Definition cmp_int_suits (o : ops) (pos : bool) (op : cmp_op) : Prop :=
  is_order op = true -> pos = true \/ normalises_inputs o = true.

Fixpoint suits_f (o : ops) (pos : bool) (ty : nat -> rep) (e : fexpr) : Prop :=
  match e with
  | EVar _ => True
  | ELit t r => signed_rep t /\ wf_raw t r /\ sign_ok pos r
  | EOfInt i => opaque_i i
  | EPos e | ENeg e | EAbs e | EReduce e => suits_f o pos ty e
  | EBin op l r => arith_suits o pos op /\ suits_f o pos ty l /\ suits_f o pos ty r
  | EBinInt op l i => arith_suits o pos op /\ suits_f o pos ty l /\ opaque_i i
  | EIntBin op i r => arith_suits o pos op /\ opaque_i i /\ suits_f o pos ty r
  end.
Fixpoint suits_b (o : ops) (pos : bool) (ty : nat -> rep) (b : bexpr) : Prop :=
  match b with
  | BCmp op l r => cmp_suits o pos op /\ suits_f o pos ty l /\ suits_f o pos ty r
  | BCmpInt op l i => cmp_int_suits o pos op /\ suits_f o pos ty l /\ opaque_i i
  | BIntCmp op i r => cmp_int_suits o pos op /\ opaque_i i /\ suits_f o pos ty r
  | BNot b => suits_b o pos ty b
  | BAnd a b | BOr a b => suits_b o pos ty a /\ suits_b o pos ty b
  end.
Fixpoint suits (o : ops) (pos : bool) (ty : nat -> rep) (c : stmt) : Prop :=
  match c with
  | SSkip => True
  | SAssign x e => suits_f o pos ty e /\ rbits (ftype ty e) <= rbits (ty x)
  | SOpAssign op x e =>
      arith_suits o pos op /\ suits_f o pos ty e /\ rbits (ftype ty e) <= rbits (ty x)
  | SOpAssignInt op x i =>
      arith_suits o pos op /\ opaque_i i /\ rbits (itype ty i) <= rbits (ty x)
  | SSeq a b => suits o pos ty a /\ suits o pos ty b
  | SIf b x y => suits_b o pos ty b /\ suits o pos ty x /\ suits o pos ty y
  | SWhile b x => suits_b o pos ty b /\ suits o pos ty x
  end.

(** Every variable holds a fraction of its type. *)
Definition any_store (pos : bool) (ty : nat -> rep) (s : store) : Prop :=
  forall x, signed_rep (ty x) /\ wf_raw (ty x) (s x) /\ sign_ok pos (s x).

(** No part is the least value of its type, in the memory and in literals. *)
Definition no_least (t : rep) (r : raw) : Prop :=
  Z.abs (num r) <= rmax t /\ Z.abs (den r) <= rmax t.
Definition no_least_store (ty : nat -> rep) (s : store) : Prop :=
  forall x, no_least (ty x) (s x).
Definition no_least_i (i : iexpr) : Prop :=
  match i with IConst s z => Z.abs z <= rmax s | _ => True end.
Fixpoint no_least_f (e : fexpr) : Prop :=
  match e with
  | EVar _ => True
  | ELit t r => no_least t r
  | EOfInt i => no_least_i i
  | EPos e | ENeg e | EAbs e | EReduce e => no_least_f e
  | EBin _ l r => no_least_f l /\ no_least_f r
  | EBinInt _ l i => no_least_f l
  | EIntBin _ i r => no_least_f r
  end.
Fixpoint no_least_b (b : bexpr) : Prop :=
  match b with
  | BCmp _ l r => no_least_f l /\ no_least_f r
  | BCmpInt _ l _ => no_least_f l
  | BIntCmp _ _ r => no_least_f r
  | BNot b => no_least_b b
  | BAnd a b | BOr a b => no_least_b a /\ no_least_b b
  end.
Fixpoint no_least_s (c : stmt) : Prop :=
  match c with
  | SSkip | SOpAssignInt _ _ _ => True
  | SAssign _ e | SOpAssign _ _ e => no_least_f e
  | SSeq a b => no_least_s a /\ no_least_s b
  | SIf b x y => no_least_b b /\ no_least_s x /\ no_least_s y
  | SWhile b x => no_least_b b /\ no_least_s x
  end.

(** No numerator or denominator is read anywhere in the program. *)
Definition no_parts_i (i : iexpr) : Prop :=
  match i with INum _ | IDen _ => False | _ => True end.
Fixpoint no_parts_f (e : fexpr) : Prop :=
  match e with
  | EVar _ | ELit _ _ => True
  | EOfInt i => no_parts_i i
  | EPos e | ENeg e | EAbs e | EReduce e => no_parts_f e
  | EBin _ l r => no_parts_f l /\ no_parts_f r
  | EBinInt _ l i => no_parts_f l /\ no_parts_i i
  | EIntBin _ i r => no_parts_i i /\ no_parts_f r
  end.
Fixpoint no_parts_b (b : bexpr) : Prop :=
  match b with
  | BCmp _ l r => no_parts_f l /\ no_parts_f r
  | BCmpInt _ l i => no_parts_f l /\ no_parts_i i
  | BIntCmp _ i r => no_parts_i i /\ no_parts_f r
  | BNot b => no_parts_b b
  | BAnd a b | BOr a b => no_parts_b a /\ no_parts_b b
  end.
Fixpoint no_parts (c : stmt) : Prop :=
  match c with
  | SSkip => True
  | SAssign _ e | SOpAssign _ _ e => no_parts_f e
  | SOpAssignInt _ _ i => no_parts_i i
  | SSeq a b => no_parts a /\ no_parts b
  | SIf b x y => no_parts_b b /\ no_parts x /\ no_parts y
  | SWhile b x => no_parts_b b /\ no_parts x
  end.

(** Under [o], every program that reads no parts and starts from lowest terms
    computes what it computes over the rationals, if it meets no undefined
    behaviour. *)
Definition faithful (o : ops) : Prop :=
  forall ty fuel s q c s',
    wf_store ty s -> represents s q -> wf_s ty c -> no_parts c ->
    exec (denote o) ty fuel s c = Some (Ok s') ->
    exists q', run fuel q c = Some q' /\ represents s' q'.

(** Example, with n the variable 0: k = 2/2; f = 3/3;
    while (k <= n) { f *= k; k += 1; } f = f * reduce(2/6) + (n - k). *)
Definition product_program : stmt :=
  SSeq (SAssign 1 (ELit int64 (mkRaw 2 2)))
  (SSeq (SAssign 2 (ELit int64 (mkRaw 3 3)))
  (SSeq (SWhile (BCmp Le (EVar 1) (EVar 0))
          (SSeq (SOpAssign Multiplies 2 (EVar 1)) (SOpAssignInt Plus 1 (IConst int32 1))))
        (SAssign 2 (EBin Plus (EBin Multiplies (EVar 2) (EReduce (ELit int64 (mkRaw 2 6))))
                              (EBin Minus (EVar 0) (EVar 1)))))).
