(** Client programs with several threads.

    The headers have no mutable object of static storage duration: every operator and
    function of /repo/include/ieme reads its operands and writes at most the object
    assigned to (fraction.hpp:551-718, fraction_math.hpp:94-260; the constants of
    numbers.hpp:8-21 are constexpr).  A thread runs a program of Parts.v; a step is the
    evaluation of one expression or condition, or one store to one part of a fraction, so
    an assignment to a fraction takes three steps: the value is computed, then
    raw_fraction's implicit assignment (raw_fraction.hpp:13-26) stores the numerator and
    then the denominator.  A schedule picks the thread that makes the next step.
    Simplifications: as in Parts.v; the loads of one evaluation are one step, and steps
    of different threads happen one after the other, which is all that C++
    ([intro.races]) allows without data races. *)

From Coq Require Import ZArith List Bool.
From Verif Require Import Machine Raw Ops Fraction Parts.
Import ListNotations.
Open Scope Z_scope.

(** What a thread has still to do: a statement of the client of fraction.hpp:551-718, or a
    store that belongs to an assignment already evaluated (raw_fraction.hpp:13-26). *)
Inductive instr : Type :=
| Do (c : pstmt)
| Store (c : cell) (z : Z).

(** The stores of raw_fraction's implicit assignment, in the order of declaration:
    raw_fraction.hpp:16. *)
Definition stores (x : nat) (v : raw) : list instr :=
  [Store (NumOf x) (num v); Store (DenOf x) (den v)].

(** One step of a thread; [None]: it has ended. The evaluations are those of [pexec]:
    fraction.hpp:551-718. *)
Definition tstep (p : policy) (G : types) (m : mem) (k : list instr) : option (res (mem * list instr)) :=
  match k with
  | [] => None
  | Store c z :: k => Some (Ok (put m c z, k))
  | Do PSkip :: k => Some (Ok (m, k))
  | Do (PSet c i) :: k =>
      Some (do z <- pint_eval G m i; Ok (m, Store c (conv_int (pint_ty G i) (cell_ty G c) z) :: k))
  | Do (PUpdate op c i) :: k =>
      Some (do z <- pint_eval G m i;
            let t := common_rep (cell_ty G c) (pint_ty G i) in
            do r <- int_arith t op (conv_int (cell_ty G c) t (m c)) (conv_int (pint_ty G i) t z);
            Ok (m, Store c (conv_int t (cell_ty G c) r) :: k))
  | Do (PAssign x e) :: k =>
      Some (do v <- pfrac_eval p G m e; Ok (m, stores x (f_convert (pfrac_ty G e) (frac_ty G x) v) ++ k))
  | Do (PCompound op x e) :: k =>
      Some (do v <- pfrac_eval p G m e;
            do r <- f_assign p (frac_ty G x) op (get_frac m x) (FracOperand (pfrac_ty G e) v);
            Ok (m, stores x r ++ k))
  | Do (PCompoundInt op x i) :: k =>
      Some (do z <- pint_eval G m i;
            do r <- f_assign p (frac_ty G x) op (get_frac m x) (IntOperand (pint_ty G i) z);
            Ok (m, stores x r ++ k))
  | Do (PCopyRaw x y) :: k =>
      Some (Ok (m, stores x (conv_raw (frac_ty G y) (frac_ty G x) (get_frac m y)) ++ k))
  | Do (PSeq a b) :: k => Some (Ok (m, Do a :: Do b :: k))
  | Do (PIf b x y) :: k => Some (do v <- pcond_eval p G m b; Ok (m, Do (if v then x else y) :: k))
  | Do (PWhile b x) :: k =>
      Some (do v <- pcond_eval p G m b; Ok (m, if v then Do x :: Do (PWhile b x) :: k else k))
  end.

(** A thread on its own for [n] steps, or until it ends. Client code of
    fraction.hpp:551-718. *)
Fixpoint solo (p : policy) (G : types) (n : nat) (m : mem) (k : list instr) : res (mem * list instr) :=
  match n with
  | O => Ok (m, k)
  | S n =>
      match tstep p G m k with
      | None => Ok (m, k)
      | Some r => do s <- r; solo p G n (fst s) (snd s)
      end
  end.

(** All threads, in the order given by a schedule. Client code of fraction.hpp:551-718. *)
Fixpoint interleave (p : policy) (G : types) (s : list nat) (m : mem) (ts : nat -> list instr) :
    res (mem * (nat -> list instr)) :=
  match s with
  | [] => Ok (m, ts)
  | i :: s =>
      match tstep p G m (ts i) with
      | None => interleave p G s m ts
      | Some r => do x <- r; interleave p G s (fst x) (fun j => if Nat.eqb j i then snd x else ts j)
      end
  end.
