(** Specification for C123: which objects a thread touches. *)

From Coq Require Import ZArith List.
From Verif Require Import Machine Raw Ops Parts Parts_spec Threads.
Import ListNotations.

(** The objects an expression, a condition or a statement can read. *)
Definition part_of (x : nat) (c : cell) : Prop := c = NumOf x \/ c = DenOf x.
Fixpoint int_reads (i : pint) (c : cell) : Prop :=
  match i with
  | PConst _ _ => False
  | PRead d => c = d
  | PTrunc x => part_of x c
  | PInt _ i j => int_reads i c \/ int_reads j c
  end.
Fixpoint frac_reads (e : pfrac) (c : cell) : Prop :=
  match e with
  | PVar x => part_of x c
  | PLit _ _ => False
  | PMake _ i j => int_reads i c \/ int_reads j c
  | PNeg e | PReduce e | PRecip e => frac_reads e c
  | PBin _ l r => frac_reads l c \/ frac_reads r c
  | PBinInt _ l i => frac_reads l c \/ int_reads i c
  | PIntBin _ i r => int_reads i c \/ frac_reads r c
  end.
Fixpoint cond_reads (b : pcond) (c : cell) : Prop :=
  match b with
  | PCmp _ l r => frac_reads l c \/ frac_reads r c
  | PCmpInt _ l i => frac_reads l c \/ int_reads i c
  | PIntCmp _ i r => int_reads i c \/ frac_reads r c
  | PTest _ i j => int_reads i c \/ int_reads j c
  | PNot b => cond_reads b c
  | PAnd a b | POr a b => cond_reads a c \/ cond_reads b c
  end.
Fixpoint may_read (p : pstmt) (c : cell) : Prop :=
  match p with
  | PSkip => False
  | PSet _ i => int_reads i c
  | PUpdate _ d i => c = d \/ int_reads i c
  | PAssign _ e => frac_reads e c
  | PCompound _ x e => part_of x c \/ frac_reads e c
  | PCompoundInt _ x i => part_of x c \/ int_reads i c
  | PCopyRaw _ y => part_of y c
  | PSeq a b => may_read a c \/ may_read b c
  | PIf b x y => cond_reads b c \/ may_read x c \/ may_read y c
  | PWhile b x => cond_reads b c \/ may_read x c
  end.

(** No data race: what one program can write, no other can read or write. *)
Definition race_free (ps : list pstmt) : Prop :=
  forall i j a b c, i <> j -> nth_error ps i = Some a -> nth_error ps j = Some b ->
    may_write a c -> ~ may_read b c /\ ~ may_write b c.

(** Thread [i] is at the start of the program [i] of a list; every thread has ended. *)
Definition started (ps : list pstmt) : nat -> list instr :=
  fun i => match nth_error ps i with Some c => [Do c] | None => [] end.
Definition ended (ts : nat -> list instr) : Prop := forall i, ts i = [].
