(** Specification for C116: when the order of evaluation cannot matter. *)

From Coq Require Import ZArith Bool.
From Verif Require Import Machine Raw Ops Fraction Program Effects.

(** The variable an expression refers to without reading it. *)
Fixpoint refers (e : term) (x : nat) : Prop :=
  match e with
  | Var y | Part _ y => x = y
  | One FNum e | One FDen e => refers e x
  | Set_ _ l _ => refers l x
  | _ => False
  end.
(** The variables it writes. *)
Fixpoint writes (e : term) (x : nat) : Prop :=
  match e with
  | One _ e => writes e x
  | Bin _ l r => writes l x \/ writes r x
  | Set_ _ l e => writes l x \/ writes e x \/ refers l x
  | _ => False
  end.
(** The variables it reads: those its operands refer to, when the operator is called. *)
Fixpoint reads (e : term) (x : nat) : Prop :=
  match e with
  | One FNum e | One FDen e => reads e x
  | One _ e => reads e x \/ refers e x
  | Bin _ l r => reads l x \/ reads r x \/ refers l x \/ refers r x
  | Set_ o l e => reads l x \/ reads e x \/ refers e x \/ (o <> None /\ refers l x)
  | _ => False
  end.
(** No operand of + - * / % writes a variable that the other one reads or writes. *)
Fixpoint race_free (e : term) : Prop :=
  match e with
  | One _ e => race_free e
  | Bin _ l r =>
      race_free l /\ race_free r /\
      forall x, (writes l x -> ~ reads r x /\ ~ writes r x) /\ (writes r x -> ~ reads l x)
  | Set_ _ l e => race_free l /\ race_free e
  | _ => True
  end.

(** Static types: a fraction (true: a variable) or an integer; [None] does not compile. *)
Inductive etype : Type :=
| EF (t : rep) (variable : bool)
| EI (t : rep).
Fixpoint typ (ty : nat -> rep) (e : term) : option etype :=
  match e with
  | Var x => Some (EF (ty x) true)
  | Tmp t _ => Some (EF t false)
  | Part _ x => Some (EI (ty x))
  | Int t _ => Some (EI t)
  | One f e =>
      match f, typ ty e with
      | FMake t, Some _ => Some (EF t false)
      | (FPos | FNeg | FAbs | FReduce), Some (EF t _) => Some (EF t false)
      | FTrunc, Some (EF t _) => Some (EI t)
      | (FNum | FDen), Some (EF t true) => Some (EI t)
      | _, _ => None
      end
  | Bin _ l r =>
      match typ ty l, typ ty r with
      | Some (EF t _), Some (EF u _) | Some (EF t _), Some (EI u) | Some (EI t), Some (EF u _) =>
          Some (EF (common_rep t u) false)
      | _, _ => None
      end
  | Set_ o l e =>
      match typ ty l, o, typ ty e with
      | Some (EF t true), None, Some (EF u _) => if rep_eqb u t then Some (EF t true) else None
      | Some (EF t true), Some _, Some _ => Some (EF t true)
      | _, _, _ => None
      end
  end.

(** The evaluation is over. *)
Definition final (c : config) : Prop :=
  match c with Run _ e => is_value e = true | Undefined => True end.

(** The same result and the same contents of every variable. *)
Definition same_config (c d : config) : Prop :=
  match c, d with
  | Run s e, Run s' e' => e = e' /\ forall x, s x = s' x
  | Undefined, Undefined => True
  | _, _ => False
  end.

(** The number of operators. *)
Fixpoint size (e : term) : nat :=
  match e with
  | One _ e => S (size e)
  | Bin _ l r => S (size l + size r)
  | Set_ _ l e => S (size l + size e)
  | _ => O
  end.

(** Expressions of Program.v as terms: they contain no assignment. *)
Definition int_term (i : iexpr) : term :=
  match i with
  | IConst s z => Int s z
  | INum x => One FNum (Var x)
  | IDen x => One FDen (Var x)
  | ITrunc x => One FTrunc (Var x)
  end.
Fixpoint pure_term (ty : nat -> rep) (e : fexpr) : term :=
  match e with
  | EVar x => Var x
  | ELit t r => Tmp t r
  | EOfInt i => One (FMake (itype ty i)) (int_term i)
  | EPos e => One FPos (pure_term ty e)
  | ENeg e => One FNeg (pure_term ty e)
  | EAbs e => One FAbs (pure_term ty e)
  | EReduce e => One FReduce (pure_term ty e)
  | EBin op l r => Bin op (pure_term ty l) (pure_term ty r)
  | EBinInt op l i => Bin op (pure_term ty l) (int_term i)
  | EIntBin op i r => Bin op (int_term i) (pure_term ty r)
  end.
