(** Client programs that mix signed and unsigned representations: the meaning
    over the rationals, with the conditions under which every rational that
    occurs can be held by the type it occurs in.  Nothing here refers to
    evaluation in the model. *)

From Coq Require Import ZArith QArith Bool.
From Verif Require Import Machine Raw Ops Fraction Spec Program Program_spec.
Open Scope Z_scope.

(** A rational of a type: both parts in lowest terms at most [B], [B] at most
    the largest value of the type, and not negative if the type is unsigned. *)
Definition not_negative (v : option Q) : bool :=
  match v with Some q => Qle_bool 0 q | None => false end.
Definition fits (B : Z) (t : rep) (v : option Q) : bool :=
  small B v && (rsigned t || not_negative v) && (B <=? rmax t).
Definition ifits (B : Z) (t : rep) (i : option Z) : bool :=
  match i with
  | Some z => (Z.abs z <=? B) && (rsigned t || (0 <=? z)) && (B <=? rmax t)
  | None => false
  end.
Definition roomy (B : Z) (t : rep) : bool := 2 * B * B <=? rmax t.

(** Every value fits the type of its expression and the common type it is
    converted to, in which products of two such parts fit, too. *)
Fixpoint ffits (B : Z) (ty : nat -> rep) (s : qstore) (e : fexpr) : bool :=
  fits B (ftype ty e) (fmeaning s e) &&
  match e with
  | EVar _ | ELit _ _ => true
  | EOfInt i => ifits B (itype ty i) (imeaning s i)
  | EPos e | ENeg e | EAbs e | EReduce e => ffits B ty s e
  | EBin _ l r =>
      let c := common_rep (ftype ty l) (ftype ty r) in
      roomy B c && ffits B ty s l && ffits B ty s r &&
      fits B c (fmeaning s l) && fits B c (fmeaning s r)
  | EBinInt _ l i =>
      let c := common_rep (ftype ty l) (itype ty i) in
      roomy B c && ffits B ty s l && ifits B (itype ty i) (imeaning s i) &&
      fits B c (fmeaning s l) && ifits B c (imeaning s i)
  | EIntBin _ i r =>
      let c := common_rep (itype ty i) (ftype ty r) in
      roomy B c && ifits B (itype ty i) (imeaning s i) && ffits B ty s r &&
      ifits B c (imeaning s i) && fits B c (fmeaning s r)
  end.
Fixpoint bfits (B : Z) (ty : nat -> rep) (s : qstore) (b : bexpr) : bool :=
  match b with
  | BCmp _ l r =>
      let c := common_rep (ftype ty l) (ftype ty r) in
      roomy B c && ffits B ty s l && ffits B ty s r &&
      fits B c (fmeaning s l) && fits B c (fmeaning s r)
  | BCmpInt _ l i =>
      let c := common_rep (ftype ty l) (itype ty i) in
      roomy B c && ffits B ty s l && ifits B (itype ty i) (imeaning s i) &&
      fits B c (fmeaning s l) && ifits B c (imeaning s i)
  | BIntCmp _ i r =>
      let c := common_rep (itype ty i) (ftype ty r) in
      roomy B c && ifits B (itype ty i) (imeaning s i) && ffits B ty s r &&
      ifits B c (imeaning s i) && fits B c (fmeaning s r)
  | BNot b => bfits B ty s b
  | BAnd x y => bfits B ty s x && (negb (bmeaning s x) || bfits B ty s y)
  | BOr x y => bfits B ty s x && (bmeaning s x || bfits B ty s y)
  end.

(** [None]: not finished within [fuel] nested steps, or some value does not fit. *)
Fixpoint run_fits (B : Z) (ty : nat -> rep) (fuel : nat) (s : qstore) (c : stmt) : option qstore :=
  match fuel with
  | O => None
  | S fuel =>
      match c with
      | SSkip => Some s
      | SAssign x e =>
          if ffits B ty s e && fits B (ty x) (fmeaning s e)
          then Some (qwrite s x (fmeaning s e)) else None
      | SOpAssign op x e =>
          let v := exact_opt op (s x) (fmeaning s e) in
          if roomy B (ty x) && fits B (ty x) (s x) && ffits B ty s e &&
             fits B (ty x) (fmeaning s e) && fits B (ty x) v
          then Some (qwrite s x v) else None
      | SOpAssignInt op x i =>
          let v := exact_opt op (s x) (int_value (imeaning s i)) in
          if roomy B (ty x) && fits B (ty x) (s x) && ifits B (itype ty i) (imeaning s i) &&
             ifits B (ty x) (imeaning s i) && fits B (ty x) v
          then Some (qwrite s x v) else None
      | SSeq a b =>
          match run_fits B ty fuel s a with Some s' => run_fits B ty fuel s' b | None => None end
      | SIf c a b =>
          if bfits B ty s c then run_fits B ty fuel s (if bmeaning s c then a else b) else None
      | SWhile b a =>
          if bfits B ty s b
          then if bmeaning s b
               then match run_fits B ty fuel s a with
                    | Some s' => run_fits B ty fuel s' (SWhile b a)
                    | None => None
                    end
               else Some s
          else None
      end
  end.

(** Constants are values of their types, in lowest terms; types are unrestricted. *)
Definition typed_i (i : iexpr) : Prop :=
  match i with IConst s z => wf_rep s /\ in_rep s z = true | _ => True end.
Fixpoint typed_f (e : fexpr) : Prop :=
  match e with
  | EVar _ => True
  | ELit t r => wf_rep t /\ wf_raw t r /\ canonical r
  | EOfInt i => typed_i i
  | EPos e | ENeg e | EAbs e | EReduce e => typed_f e
  | EBin _ l r => typed_f l /\ typed_f r
  | EBinInt _ l i => typed_f l /\ typed_i i
  | EIntBin _ i r => typed_i i /\ typed_f r
  end.
Fixpoint typed_b (b : bexpr) : Prop :=
  match b with
  | BCmp _ l r => typed_f l /\ typed_f r
  | BCmpInt _ l i => typed_f l /\ typed_i i
  | BIntCmp _ i r => typed_i i /\ typed_f r
  | BNot b => typed_b b
  | BAnd a b | BOr a b => typed_b a /\ typed_b b
  end.
Fixpoint typed (c : stmt) : Prop :=
  match c with
  | SSkip => True
  | SAssign _ e | SOpAssign _ _ e => typed_f e
  | SOpAssignInt _ _ i => typed_i i
  | SSeq a b => typed a /\ typed b
  | SIf b x y => typed_b b /\ typed x /\ typed y
  | SWhile b x => typed_b b /\ typed x
  end.
Definition typed_store (ty : nat -> rep) (s : store) : Prop :=
  forall x, wf_rep (ty x) /\ wf_raw (ty x) (s x) /\ canonical (s x).

(** Example: variables 0 and 1 are of unsigned int, 2 is of long:
    0 = 7/2; 1 = 0 - 1U/2; 2 = 1 * -5L; while (2 < 0) { 2 += 0; 1 -= 0U; } *)
Definition mixed_types (x : nat) : rep := match x with 2%nat => int64 | _ => uint32 end.
Definition mixed_program : stmt :=
  SSeq (SAssign 0 (ELit int32 (mkRaw 7 2)))
  (SSeq (SAssign 1 (EBin Minus (EVar 0) (ELit uint32 (mkRaw 1 2))))
  (SSeq (SAssign 2 (EBinInt Multiplies (EVar 1) (IConst int64 (-5))))
        (SWhile (BCmpInt Lt (EVar 2) (IConst int32 0))
                (SSeq (SOpAssign Plus 2 (EVar 0))
                      (SOpAssignInt Minus 1 (IConst uint32 0)))))).
