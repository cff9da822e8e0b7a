(** Specification for C92: moving to a wider representation. *)

From Coq Require Import ZArith QArith List Bool.
From Verif Require Import Machine Raw Ops Spec Fraction Mixed Mixed_spec Chrono Chrono2 Program.
Open Scope Z_scope.

(** Both signed, the second at least as wide as the first. *)
Definition wider (t u : rep) : Prop := signed_rep t /\ signed_rep u /\ rbits t <= rbits u.

(** The same for the types of the variables of a program. *)
Definition wider_all (ty ty' : nat -> rep) : Prop := forall x, wider (ty x) (ty' x).

(** ** Programs

    Constants are values of their own signed types, and nothing is assigned to a
    variable of a narrower type; [ty] gives the types of the variables.  Constants
    need not be in lowest terms or defined. *)
Definition static_i (i : iexpr) : Prop :=
  match i with IConst s z => signed_rep s /\ in_rep s z = true | _ => True end.
Fixpoint static_f (e : fexpr) : Prop :=
  match e with
  | EVar _ => True
  | ELit t r => signed_rep t /\ wf_raw t r
  | EOfInt i => static_i i
  | EPos e | ENeg e | EAbs e | EReduce e => static_f e
  | EBin _ l r => static_f l /\ static_f r
  | EBinInt _ l i => static_f l /\ static_i i
  | EIntBin _ i r => static_i i /\ static_f r
  end.
Fixpoint static_b (b : bexpr) : Prop :=
  match b with
  | BCmp _ l r => static_f l /\ static_f r
  | BCmpInt _ l i => static_f l /\ static_i i
  | BIntCmp _ i r => static_i i /\ static_f r
  | BNot b => static_b b
  | BAnd a b | BOr a b => static_b a /\ static_b b
  end.
Fixpoint static_s (ty : nat -> rep) (c : stmt) : Prop :=
  match c with
  | SSkip => True
  | SAssign x e | SOpAssign _ x e => static_f e /\ rbits (ftype ty e) <= rbits (ty x)
  | SOpAssignInt _ x i => static_i i /\ rbits (itype ty i) <= rbits (ty x)
  | SSeq a b => static_s ty a /\ static_s ty b
  | SIf b x y => static_b b /\ static_s ty x /\ static_s ty y
  | SWhile b x => static_b b /\ static_s ty x
  end.

(** Each variable holds a value of its signed type. *)
Definition typed_store (ty : nat -> rep) (s : store) : Prop :=
  forall x, signed_rep (ty x) /\ wf_raw (ty x) (s x).

(** ** Mixed numbers

    The same expression over another type. *)
Fixpoint retype (u : rep) (e : mexpr) : mexpr :=
  match e with
  | MMake _ _ w f => MMake u u w f
  | MOfFraction _ f => MOfFraction u f
  | MPos e => MPos (retype u e)
  | MNeg e => MNeg (retype u e)
  | MPlus l r => MPlus (retype u l) (retype u r)
  | MPlusFraction e _ f => MPlusFraction (retype u e) u f
  | MFractionPlus _ f e => MFractionPlus u f (retype u e)
  | MPlusWhole e _ z => MPlusWhole (retype u e) u z
  | MWholePlus _ z e => MWholePlus u z (retype u e)
  end.

(** ** Examples *)
Definition small_types : nat -> rep := fun _ => int32.
Definition large_types : nat -> rep := fun x => match x with O => int32 | _ => int64 end.
(** The sum of 1/k for k from 1 to 6; the counter is variable 0. *)
Definition harmonic : stmt :=
  SSeq (SAssign 0 (ELit int32 (mkRaw 1 1)))
    (SWhile (BCmp Le (EVar 0) (ELit int32 (mkRaw 6 1)))
       (SSeq (SOpAssign Plus 1 (EBin Divides (ELit int32 (mkRaw 1 1)) (EVar 0)))
             (SOpAssignInt Plus 0 (IConst int32 1)))).
Definition mixed_sum : mexpr :=
  MNeg (MPlusWhole (MPlus (MMake int32 int32 2 (mkRaw 7 3)) (MOfFraction int32 (mkRaw (-5) 4))) int32 10).
