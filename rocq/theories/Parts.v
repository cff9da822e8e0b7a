(** Client programs that write the parts of fractions.

    numerator(), denominator(), num(), den() and raw() of a fraction that is not const
    return references to its parts (/repo/include/ieme/fraction.hpp:52-65, 551-573), so
    a client can assign to them, and can pass them to operators that write the same
    fraction.  Memory is therefore modelled by cells: the two parts of every variable of
    type fraction<Rep, Ops>, and integer variables.  An operator of fraction.hpp:631-682
    loads the cells of its operands, and the implicit copy assignment of raw_fraction
    (raw_fraction.hpp:13-26) stores the numerator, then the denominator.
    Simplifications: as in Program.v, the variables of a program share one policy, and
    operands have no side effects (Effects.v models operands that assign); integers have
    the built-in operators + - * / % and comparisons of C++ only. *)

From Coq Require Import ZArith Bool.
From Verif Require Import Machine Raw Ops Fraction Fmath.
Open Scope Z_scope.

(** An object of integer type: a part of a fraction (raw_fraction.hpp:16, returned by
    reference at fraction.hpp:52-65) or an integer variable of the client. *)
Inductive cell : Type :=
| NumOf (x : nat)
| DenOf (x : nat)
| IntVar (k : nat).
(** The same object. Of fraction.hpp:52-65. *)
Definition cell_eqb (a b : cell) : bool :=
  match a, b with
  | NumOf x, NumOf y | DenOf x, DenOf y | IntVar x, IntVar y => Nat.eqb x y
  | _, _ => false
  end.

(** The types of the variables: the Rep of each fraction (fraction.hpp:28) and the type
    of each integer variable. *)
Record types : Type := mkTypes { frac_ty : nat -> rep; int_ty : nat -> rep }.
(** The type of an object: rep_type& at fraction.hpp:52-65. *)
Definition cell_ty (G : types) (c : cell) : rep :=
  match c with NumOf x | DenOf x => frac_ty G x | IntVar k => int_ty G k end.

(** Memory. The objects of fraction.hpp:28-66. *)
Definition mem : Type := cell -> Z.
(** Storing an integer through a reference of fraction.hpp:52-65. *)
Definition put (m : mem) (c : cell) (z : Z) : mem := fun d => if cell_eqb d c then z else m d.
(** Loading a fraction: left.raw() at fraction.hpp:587-629. *)
Definition get_frac (m : mem) (x : nat) : raw := mkRaw (m (NumOf x)) (m (DenOf x)).
(** The implicit copy assignment of raw_fraction (raw_fraction.hpp:13-26): memberwise, in
    the order of declaration. *)
Definition put_frac (m : mem) (x : nat) (v : raw) : mem :=
  put (put m (NumOf x) (num v)) (DenOf x) (den v).

(** Integer expressions: a constant, an object (fraction.hpp:52-65), trunc
    (fraction_math.hpp:154-158), a built-in operator. *)
Inductive pint : Type :=
| PConst (s : rep) (z : Z)
| PRead (c : cell)
| PTrunc (x : nat)
| PInt (op : arith_op) (i j : pint).
(** Fraction expressions: a variable, a constant, fraction<t>(i, j)
    (fraction.hpp:40), unary - (fraction.hpp:581-585), reduce and reciprocal
    (fraction_math.hpp:94-127), the operators (fraction.hpp:631-660). *)
Inductive pfrac : Type :=
| PVar (x : nat)
| PLit (t : rep) (v : raw)
| PMake (t : rep) (i j : pint)
| PNeg (e : pfrac)
| PReduce (e : pfrac)
| PRecip (e : pfrac)
| PBin (op : arith_op) (l r : pfrac)
| PBinInt (op : arith_op) (l : pfrac) (i : pint)
| PIntBin (op : arith_op) (i : pint) (r : pfrac).
(** Conditions: comparisons with a fraction on either side (fraction.hpp:690-718),
    comparisons of integers, !, &&, ||. *)
Inductive pcond : Type :=
| PCmp (op : cmp_op) (l r : pfrac)
| PCmpInt (op : cmp_op) (l : pfrac) (i : pint)
| PIntCmp (op : cmp_op) (i : pint) (r : pfrac)
| PTest (op : cmp_op) (i j : pint)
| PNot (b : pcond)
| PAnd (a b : pcond)
| POr (a b : pcond).
(** Statements: c = i and c op= i for an object c of integer type (fraction.hpp:52-65),
    x = e, x op= e, x op= i (fraction.hpp:662-688), x.raw() = y.raw() (fraction.hpp:64-65),
    control structures. *)
Inductive pstmt : Type :=
| PSkip
| PSet (c : cell) (i : pint)
| PUpdate (op : arith_op) (c : cell) (i : pint)
| PAssign (x : nat) (e : pfrac)
| PCompound (op : arith_op) (x : nat) (e : pfrac)
| PCompoundInt (op : arith_op) (x : nat) (i : pint)
| PCopyRaw (x y : nat)
| PSeq (a b : pstmt)
| PIf (b : pcond) (x y : pstmt)
| PWhile (b : pcond) (x : pstmt).

(** The type of an integer expression ([expr.arith.conv] for operators); parts have the
    type of fraction.hpp:52-65. *)
Fixpoint pint_ty (G : types) (i : pint) : rep :=
  match i with
  | PConst s _ => s
  | PRead c => cell_ty G c
  | PTrunc x => frac_ty G x
  | PInt _ i j => common_rep (pint_ty G i) (pint_ty G j)
  end.
(** The Rep of a fraction expression: the return types at fraction.hpp:575-660. *)
Fixpoint pfrac_ty (G : types) (e : pfrac) : rep :=
  match e with
  | PVar x => frac_ty G x
  | PLit t _ => t
  | PMake t _ _ => t
  | PNeg e | PReduce e | PRecip e => pfrac_ty G e
  | PBin _ l r => common_rep (pfrac_ty G l) (pfrac_ty G r)
  | PBinInt _ l i => common_rep (pfrac_ty G l) (pint_ty G i)
  | PIntBin _ i r => common_rep (pint_ty G i) (pfrac_ty G r)
  end.

(** The built-in operators on integers of type [t], as used at ops.hpp:553-557. *)
Definition int_arith (t : rep) (op : arith_op) (a b : Z) : res Z :=
  match op with
  | Plus => m_add t a b
  | Minus => m_sub t a b
  | Multiplies => m_mul t a b
  | Divides => m_div t a b
  | Modulus => m_rem t a b
  end.
(** The built-in comparisons, as used at ops.hpp:678-683. *)
Definition int_cmp (op : cmp_op) (a b : Z) : bool :=
  match op with
  | Eq => a =? b
  | Ne => negb (a =? b)
  | Lt => a <? b
  | Le => a <=? b
  | Gt => b <? a
  | Ge => b <=? a
  end.

(** Evaluation of an integer: loads through fraction.hpp:52-65, fraction_math.hpp:154-158,
    operators in the common type. *)
Fixpoint pint_eval (G : types) (m : mem) (i : pint) : res Z :=
  match i with
  | PConst _ z => Ok z
  | PRead c => Ok (m c)
  | PTrunc x => f_trunc (frac_ty G x) (get_frac m x)
  | PInt op i j =>
      do a <- pint_eval G m i;
      do b <- pint_eval G m j;
      let t := common_rep (pint_ty G i) (pint_ty G j) in
      int_arith t op (conv_int (pint_ty G i) t a) (conv_int (pint_ty G j) t b)
  end.

(** Evaluation of a fraction: the calls listed at [pfrac]. fraction.hpp:40, 575-660,
    fraction_math.hpp:94-127. *)
Fixpoint pfrac_eval (p : policy) (G : types) (m : mem) (e : pfrac) : res raw :=
  match e with
  | PVar x => Ok (get_frac m x)
  | PLit _ v => Ok v
  | PMake t i j =>
      do a <- pint_eval G m i;
      do b <- pint_eval G m j;
      Ok (mkRaw (conv_int (pint_ty G i) t a) (conv_int (pint_ty G j) t b))
  | PNeg e => do v <- pfrac_eval p G m e; f_negate p (pfrac_ty G e) v
  | PReduce e => do v <- pfrac_eval p G m e; reduce (pfrac_ty G e) v normalize_signs_mode
  | PRecip e => do v <- pfrac_eval p G m e; Ok (reciprocal v)
  | PBin op l r =>
      do x <- pfrac_eval p G m l;
      do y <- pfrac_eval p G m r;
      f_arith p (pfrac_ty G l) (pfrac_ty G r) op (RR x y)
  | PBinInt op l i =>
      do x <- pfrac_eval p G m l;
      do z <- pint_eval G m i;
      f_arith p (pfrac_ty G l) (pint_ty G i) op (RI x z)
  | PIntBin op i r =>
      do z <- pint_eval G m i;
      do y <- pfrac_eval p G m r;
      f_arith p (pint_ty G i) (pfrac_ty G r) op (IR z y)
  end.

(** Evaluation of a condition. fraction.hpp:690-718. *)
Fixpoint pcond_eval (p : policy) (G : types) (m : mem) (b : pcond) : res bool :=
  match b with
  | PCmp op l r =>
      do x <- pfrac_eval p G m l;
      do y <- pfrac_eval p G m r;
      f_cmp p (pfrac_ty G l) (pfrac_ty G r) op (RR x y)
  | PCmpInt op l i =>
      do x <- pfrac_eval p G m l;
      do z <- pint_eval G m i;
      f_cmp p (pfrac_ty G l) (pint_ty G i) op (RI x z)
  | PIntCmp op i r =>
      do z <- pint_eval G m i;
      do y <- pfrac_eval p G m r;
      f_cmp p (pint_ty G i) (pfrac_ty G r) op (IR z y)
  | PTest op i j =>
      do a <- pint_eval G m i;
      do b <- pint_eval G m j;
      let t := common_rep (pint_ty G i) (pint_ty G j) in
      Ok (int_cmp op (conv_int (pint_ty G i) t a) (conv_int (pint_ty G j) t b))
  | PNot b => do v <- pcond_eval p G m b; Ok (negb v)
  | PAnd a b => do v <- pcond_eval p G m a; if v then pcond_eval p G m b else Ok false
  | POr a b => do v <- pcond_eval p G m a; if v then Ok true else pcond_eval p G m b
  end.

(** Execution; [None]: not finished within [fuel] nested steps. An integer is converted
    to the type of the object it is assigned to; c op= i is computed in the common type
    ([expr.ass]). The compound assignments are [left = left op right]
    (fraction.hpp:662-688): the operands are loaded and the result is computed before the
    first store, also when right is a part of left or left itself. *)
Fixpoint pexec (p : policy) (G : types) (fuel : nat) (m : mem) (c : pstmt) : option (res mem) :=
  match fuel with
  | O => None
  | S fuel =>
      match c with
      | PSkip => Some (Ok m)
      | PSet c i => Some (do z <- pint_eval G m i; Ok (put m c (conv_int (pint_ty G i) (cell_ty G c) z)))
      | PUpdate op c i =>
          Some (do z <- pint_eval G m i;
                let t := common_rep (cell_ty G c) (pint_ty G i) in
                do r <- int_arith t op (conv_int (cell_ty G c) t (m c)) (conv_int (pint_ty G i) t z);
                Ok (put m c (conv_int t (cell_ty G c) r)))
      | PAssign x e =>
          Some (do v <- pfrac_eval p G m e; Ok (put_frac m x (f_convert (pfrac_ty G e) (frac_ty G x) v)))
      | PCompound op x e =>
          Some (do v <- pfrac_eval p G m e;
                do r <- f_assign p (frac_ty G x) op (get_frac m x) (FracOperand (pfrac_ty G e) v);
                Ok (put_frac m x r))
      | PCompoundInt op x i =>
          Some (do z <- pint_eval G m i;
                do r <- f_assign p (frac_ty G x) op (get_frac m x) (IntOperand (pint_ty G i) z);
                Ok (put_frac m x r))
      | PCopyRaw x y => Some (Ok (put_frac m x (conv_raw (frac_ty G y) (frac_ty G x) (get_frac m y))))
      | PSeq a b =>
          match pexec p G fuel m a with
          | Some (Ok m') => pexec p G fuel m' b
          | r => r
          end
      | PIf b x y =>
          match pcond_eval p G m b with
          | Ok v => pexec p G fuel m (if v then x else y)
          | UB u => Some (UB u)
          end
      | PWhile b x =>
          match pcond_eval p G m b with
          | Ok true =>
              match pexec p G fuel m x with
              | Some (Ok m') => pexec p G fuel m' (PWhile b x)
              | r => r
              end
          | Ok false => Some (Ok m)
          | UB u => Some (UB u)
          end
      end
  end.
