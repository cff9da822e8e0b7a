(** Specification for C121: what programs that write parts of fractions mean over
    integers and rationals without bounds.  Only the syntax of programs and the data
    types are shared with the model. *)

From Coq Require Import ZArith QArith Bool.
From Verif Require Import Machine Raw Ops Fraction Spec Mixed_spec Program2_spec Parts.

(** The numerator and denominator of a possibly undefined number, in lowest terms. *)
Definition lowest (v : option Q) : raw :=
  match v with
  | Some q => mkRaw (Qnum (Qred q)) (Zpos (Qden (Qred q)))
  | None => mkRaw 0 0
  end.

Definition zmem : Type := cell -> Z.
Definition pair_at (n : zmem) (x : nat) : raw := mkRaw (n (NumOf x)) (n (DenOf x)).
Definition write_int (n : zmem) (c : cell) (z : Z) : zmem :=
  fun d => if cell_eqb d c then z else n d.
Definition write_pair (n : zmem) (x : nat) (v : raw) : zmem :=
  fun d => match d with
           | NumOf y => if Nat.eqb y x then num v else n d
           | DenOf y => if Nat.eqb y x then den v else n d
           | IntVar _ => n d
           end.

(** Integers; the quotient by 0, which Coq takes to be 0, does not matter: the execution
    is undefined. *)
Definition int_mean (op : arith_op) (a b : Z) : Z :=
  match op with
  | Plus => a + b
  | Minus => a - b
  | Multiplies => a * b
  | Divides => Z.quot a b
  | Modulus => Z.rem a b
  end%Z.
Fixpoint pint_mean (n : zmem) (i : pint) : Z :=
  match i with
  | PConst _ z => z
  | PRead c => n c
  | PTrunc x => Z.quot (n (NumOf x)) (n (DenOf x))
  | PInt op i j => int_mean op (pint_mean n i) (pint_mean n j)
  end.

(** Fractions are pairs; operators give the exact result in lowest terms. *)
Fixpoint pfrac_mean (n : zmem) (e : pfrac) : raw :=
  match e with
  | PVar x => pair_at n x
  | PLit _ v => v
  | PMake _ i j => mkRaw (pint_mean n i) (pint_mean n j)
  | PNeg e => lowest (opp_opt (value (pfrac_mean n e)))
  | PReduce e => lowest (value (pfrac_mean n e))
  | PRecip e => mkRaw (den (pfrac_mean n e)) (num (pfrac_mean n e))
  | PBin op l r => lowest (exact_opt op (value (pfrac_mean n l)) (value (pfrac_mean n r)))
  | PBinInt op l i => lowest (exact_opt op (value (pfrac_mean n l)) (Some (inject_Z (pint_mean n i))))
  | PIntBin op i r => lowest (exact_opt op (Some (inject_Z (pint_mean n i))) (value (pfrac_mean n r)))
  end.

Fixpoint pcond_mean (n : zmem) (b : pcond) : bool :=
  match b with
  | PCmp op l r => exact_cmp_opt op (value (pfrac_mean n l)) (value (pfrac_mean n r))
  | PCmpInt op l i => exact_cmp_opt op (value (pfrac_mean n l)) (Some (inject_Z (pint_mean n i)))
  | PIntCmp op i r => exact_cmp_opt op (Some (inject_Z (pint_mean n i))) (value (pfrac_mean n r))
  | PTest op i j => exact_cmp op (inject_Z (pint_mean n i)) (inject_Z (pint_mean n j))
  | PNot b => negb (pcond_mean n b)
  | PAnd a b => pcond_mean n a && pcond_mean n b
  | POr a b => pcond_mean n a || pcond_mean n b
  end.

(** [None]: not finished within [fuel] nested steps. *)
Fixpoint prun (fuel : nat) (n : zmem) (c : pstmt) : option zmem :=
  match fuel with
  | O => None
  | S fuel =>
      match c with
      | PSkip => Some n
      | PSet c i => Some (write_int n c (pint_mean n i))
      | PUpdate op c i => Some (write_int n c (int_mean op (n c) (pint_mean n i)))
      | PAssign x e => Some (write_pair n x (pfrac_mean n e))
      | PCompound op x e =>
          Some (write_pair n x (lowest (exact_opt op (value (pair_at n x)) (value (pfrac_mean n e)))))
      | PCompoundInt op x i =>
          Some (write_pair n x (lowest (exact_opt op (value (pair_at n x)) (Some (inject_Z (pint_mean n i))))))
      | PCopyRaw x y => Some (write_pair n x (pair_at n y))
      | PSeq a b => match prun fuel n a with Some n' => prun fuel n' b | None => None end
      | PIf b x y => prun fuel n (if pcond_mean n b then x else y)
      | PWhile b x =>
          if pcond_mean n b
          then match prun fuel n x with Some n' => prun fuel n' (PWhile b x) | None => None end
          else Some n
      end
  end.

(** Static conditions: signed representations, constants that fit, no conversion to a
    narrower type, and divisions and comparisons that suit the policy although
    denominators may be negative or zero (see Program2_spec.v). *)
Fixpoint wf_pint (i : pint) : Prop :=
  match i with
  | PConst s z => signed_rep s /\ in_rep s z = true
  | PRead _ | PTrunc _ => True
  | PInt _ i j => wf_pint i /\ wf_pint j
  end.
Fixpoint wf_pfrac (o : ops) (G : types) (e : pfrac) : Prop :=
  match e with
  | PVar _ => True
  | PLit t v => signed_rep t /\ wf_raw t v
  | PMake t i j =>
      signed_rep t /\ wf_pint i /\ wf_pint j /\
      (rbits (pint_ty G i) <= rbits t)%Z /\ (rbits (pint_ty G j) <= rbits t)%Z
  | PNeg e | PReduce e | PRecip e => wf_pfrac o G e
  | PBin op l r => arith_suits o false op /\ wf_pfrac o G l /\ wf_pfrac o G r
  | PBinInt op l i => arith_suits o false op /\ wf_pfrac o G l /\ wf_pint i
  | PIntBin op i r => arith_suits o false op /\ wf_pint i /\ wf_pfrac o G r
  end.
Fixpoint wf_pcond (o : ops) (G : types) (b : pcond) : Prop :=
  match b with
  | PCmp op l r => cmp_suits o false op /\ wf_pfrac o G l /\ wf_pfrac o G r
  | PCmpInt op l i => cmp_int_suits o false op /\ wf_pfrac o G l /\ wf_pint i
  | PIntCmp op i r => cmp_int_suits o false op /\ wf_pint i /\ wf_pfrac o G r
  | PTest _ i j => wf_pint i /\ wf_pint j
  | PNot b => wf_pcond o G b
  | PAnd a b | POr a b => wf_pcond o G a /\ wf_pcond o G b
  end.
Fixpoint wf_pstmt (o : ops) (G : types) (c : pstmt) : Prop :=
  match c with
  | PSkip => True
  | PSet c i | PUpdate _ c i => wf_pint i /\ (rbits (pint_ty G i) <= rbits (cell_ty G c))%Z
  | PAssign x e => wf_pfrac o G e /\ (rbits (pfrac_ty G e) <= rbits (frac_ty G x))%Z
  | PCompound op x e =>
      arith_suits o false op /\ wf_pfrac o G e /\ (rbits (pfrac_ty G e) <= rbits (frac_ty G x))%Z
  | PCompoundInt op x i =>
      arith_suits o false op /\ wf_pint i /\ (rbits (pint_ty G i) <= rbits (frac_ty G x))%Z
  | PCopyRaw x y => (rbits (frac_ty G y) <= rbits (frac_ty G x))%Z
  | PSeq a b => wf_pstmt o G a /\ wf_pstmt o G b
  | PIf b x y => wf_pcond o G b /\ wf_pstmt o G x /\ wf_pstmt o G y
  | PWhile b x => wf_pcond o G b /\ wf_pstmt o G x
  end.
(** Every object holds a value of its type, a signed one. *)
Definition wf_mem (G : types) (m : mem) : Prop :=
  forall c, signed_rep (cell_ty G c) /\ in_rep (cell_ty G c) (m c) = true.

(** The objects a program can write. *)
Fixpoint may_write (p : pstmt) (c : cell) : Prop :=
  match p with
  | PSkip => False
  | PSet d _ | PUpdate _ d _ => c = d
  | PAssign x _ | PCompound _ x _ | PCompoundInt _ x _ | PCopyRaw x _ => c = NumOf x \/ c = DenOf x
  | PSeq a b => may_write a c \/ may_write b c
  | PIf _ x y => may_write x c \/ may_write y c
  | PWhile _ x => may_write x c
  end.

(** Halving by doubling the denominator, with k an integer variable:
    while (k > 0) { x.den() *= 2; k -= 1; } *)
Definition halving (s : rep) : pstmt :=
  PWhile (PTest Gt (PRead (IntVar 0)) (PConst s 0))
    (PSeq (PUpdate Multiplies (DenOf 0) (PConst s 2)) (PUpdate Minus (IntVar 0) (PConst s 1))).
