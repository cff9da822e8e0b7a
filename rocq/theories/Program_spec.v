(** What a client program means over the rationals: variables hold a rational
    or "undefined", operators are exact, comparisons compare values.  Nothing
    here refers to representations, policies or evaluation in the model; only
    the syntax of programs is shared. *)

From Coq Require Import ZArith QArith Qabs Bool.
From Verif Require Import Machine Raw Ops Fraction Spec Mixed_spec Program.

Definition qstore : Type := nat -> option Q.
Definition qwrite (s : qstore) (x : nat) (v : option Q) : qstore :=
  fun y => if Nat.eqb y x then v else s y.

(** Numerator and denominator in lowest terms (0/0 when undefined), and the
    integer part; the integer part of "undefined" does not exist. *)
Definition imeaning (s : qstore) (i : iexpr) : option Z :=
  match i with
  | IConst _ z => Some z
  | INum x => Some (match s x with Some q => Qnum (Qred q) | None => 0%Z end)
  | IDen x => Some (match s x with Some q => Zpos (Qden (Qred q)) | None => 0%Z end)
  | ITrunc x => match s x with Some q => Some (Qtrunc q) | None => None end
  end.
Definition int_value (i : option Z) : option Q :=
  match i with Some z => Some (inject_Z z) | None => None end.

Definition abs_opt (x : option Q) : option Q :=
  match x with Some q => Some (Qabs q) | None => None end.

Fixpoint fmeaning (s : qstore) (e : fexpr) : option Q :=
  match e with
  | EVar x => s x
  | ELit _ r => value r
  | EOfInt i => int_value (imeaning s i)
  | EPos e | EReduce e => fmeaning s e
  | ENeg e => opp_opt (fmeaning s e)
  | EAbs e => abs_opt (fmeaning s e)
  | EBin op l r => exact_opt op (fmeaning s l) (fmeaning s r)
  | EBinInt op l i => exact_opt op (fmeaning s l) (int_value (imeaning s i))
  | EIntBin op i r => exact_opt op (int_value (imeaning s i)) (fmeaning s r)
  end.

Fixpoint bmeaning (s : qstore) (b : bexpr) : bool :=
  match b with
  | BCmp op l r => exact_cmp_opt op (fmeaning s l) (fmeaning s r)
  | BCmpInt op l i => exact_cmp_opt op (fmeaning s l) (int_value (imeaning s i))
  | BIntCmp op i r => exact_cmp_opt op (int_value (imeaning s i)) (fmeaning s r)
  | BNot b => negb (bmeaning s b)
  | BAnd a b => bmeaning s a && bmeaning s b
  | BOr a b => bmeaning s a || bmeaning s b
  end.

(** [None]: not finished within [fuel] nested steps. *)
Fixpoint run (fuel : nat) (s : qstore) (c : stmt) : option qstore :=
  match fuel with
  | O => None
  | S fuel =>
      match c with
      | SSkip => Some s
      | SAssign x e => Some (qwrite s x (fmeaning s e))
      | SOpAssign op x e => Some (qwrite s x (exact_opt op (s x) (fmeaning s e)))
      | SOpAssignInt op x i =>
          Some (qwrite s x (exact_opt op (s x) (int_value (imeaning s i))))
      | SSeq a b => match run fuel s a with Some s' => run fuel s' b | None => None end
      | SIf c a b => run fuel s (if bmeaning s c then a else b)
      | SWhile b a =>
          if bmeaning s b
          then match run fuel s a with Some s' => run fuel s' (SWhile b a) | None => None end
          else Some s
      end
  end.

(** Static conditions: signed representations, constants in lowest terms, and
    no assignment to a narrower type. *)
Definition wf_i (ty : nat -> rep) (i : iexpr) : Prop :=
  match i with
  | IConst s z => signed_rep s /\ in_rep s z = true
  | _ => True
  end.
Fixpoint wf_f (ty : nat -> rep) (e : fexpr) : Prop :=
  match e with
  | EVar _ => True
  | ELit t r => signed_rep t /\ wf_raw t r /\ canonical r
  | EOfInt i => wf_i ty i
  | EPos e | ENeg e | EAbs e | EReduce e => wf_f ty e
  | EBin _ l r => wf_f ty l /\ wf_f ty r
  | EBinInt _ l i => wf_f ty l /\ wf_i ty i
  | EIntBin _ i r => wf_i ty i /\ wf_f ty r
  end.
Fixpoint wf_b (ty : nat -> rep) (b : bexpr) : Prop :=
  match b with
  | BCmp _ l r => wf_f ty l /\ wf_f ty r
  | BCmpInt _ l i => wf_f ty l /\ wf_i ty i
  | BIntCmp _ i r => wf_i ty i /\ wf_f ty r
  | BNot b => wf_b ty b
  | BAnd a b | BOr a b => wf_b ty a /\ wf_b ty b
  end.
Fixpoint wf_s (ty : nat -> rep) (c : stmt) : Prop :=
  match c with
  | SSkip => True
  | SAssign x e | SOpAssign _ x e => wf_f ty e /\ (rbits (ftype ty e) <= rbits (ty x))%Z
  | SOpAssignInt _ x i => wf_i ty i /\ (rbits (itype ty i) <= rbits (ty x))%Z
  | SSeq a b => wf_s ty a /\ wf_s ty b
  | SIf b x y => wf_b ty b /\ wf_s ty x /\ wf_s ty y
  | SWhile b x => wf_b ty b /\ wf_s ty x
  end.

(** Every variable holds a fraction of its type, in lowest terms. *)
Definition wf_store (ty : nat -> rep) (s : store) : Prop :=
  forall x, signed_rep (ty x) /\ wf_raw (ty x) (s x) /\ canonical (s x).

(** The memory represents the mathematical variables. *)
Definition represents (s : store) (q : qstore) : Prop :=
  forall x, same_value (value (s x)) (q x).

(** ** Programs whose values stay small

    [run_small B]: the same meaning, but every rational that occurs, in lowest
    terms, must have both parts of magnitude at most [B] (in particular it must
    be defined); otherwise there is no result. *)
Definition small (B : Z) (v : option Q) : bool :=
  match v with
  | Some q => ((Z.abs (Qnum (Qred q)) <=? B) && (Zpos (Qden (Qred q)) <=? B))%Z
  | None => false
  end.
Definition ismall (B : Z) (s : qstore) (i : iexpr) : bool :=
  match imeaning s i with Some z => (Z.abs z <=? B)%Z | None => false end.
Fixpoint fsmall (B : Z) (s : qstore) (e : fexpr) : bool :=
  small B (fmeaning s e) &&
  match e with
  | EVar _ | ELit _ _ => true
  | EOfInt i => ismall B s i
  | EPos e | ENeg e | EAbs e | EReduce e => fsmall B s e
  | EBin _ l r => fsmall B s l && fsmall B s r
  | EBinInt _ l i => fsmall B s l && ismall B s i
  | EIntBin _ i r => ismall B s i && fsmall B s r
  end.
Fixpoint bsmall (B : Z) (s : qstore) (b : bexpr) : bool :=
  match b with
  | BCmp _ l r => fsmall B s l && fsmall B s r
  | BCmpInt _ l i => fsmall B s l && ismall B s i
  | BIntCmp _ i r => ismall B s i && fsmall B s r
  | BNot b => bsmall B s b
  | BAnd x y => bsmall B s x && (negb (bmeaning s x) || bsmall B s y)
  | BOr x y => bsmall B s x && (bmeaning s x || bsmall B s y)
  end.
Fixpoint run_small (B : Z) (fuel : nat) (s : qstore) (c : stmt) : option qstore :=
  match fuel with
  | O => None
  | S fuel =>
      match c with
      | SSkip => Some s
      | SAssign x e => if fsmall B s e then Some (qwrite s x (fmeaning s e)) else None
      | SOpAssign op x e =>
          let v := exact_opt op (s x) (fmeaning s e) in
          if small B (s x) && fsmall B s e && small B v then Some (qwrite s x v) else None
      | SOpAssignInt op x i =>
          let v := exact_opt op (s x) (int_value (imeaning s i)) in
          if small B (s x) && ismall B s i && small B v then Some (qwrite s x v) else None
      | SSeq a b => match run_small B fuel s a with Some s' => run_small B fuel s' b | None => None end
      | SIf c a b => if bsmall B s c then run_small B fuel s (if bmeaning s c then a else b) else None
      | SWhile b a =>
          if bsmall B s b
          then if bmeaning s b
               then match run_small B fuel s a with
                    | Some s' => run_small B fuel s' (SWhile b a)
                    | None => None
                    end
               else Some s
          else None
      end
  end.

(** [room B t]: the largest value of the type is at least 2 B B; [room_s B ty c]:
    so it is for the type of every operation of the program. *)
Definition room (B : Z) (t : rep) : Prop := (2 * B * B <= rmax t)%Z.
Fixpoint room_f (B : Z) (ty : nat -> rep) (e : fexpr) : Prop :=
  match e with
  | EVar _ | ELit _ _ | EOfInt _ => True
  | EPos e => room_f B ty e
  | ENeg e | EAbs e | EReduce e => room B (ftype ty e) /\ room_f B ty e
  | EBin _ l r => room B (common_rep (ftype ty l) (ftype ty r)) /\ room_f B ty l /\ room_f B ty r
  | EBinInt _ l i => room B (common_rep (ftype ty l) (itype ty i)) /\ room_f B ty l
  | EIntBin _ i r => room B (common_rep (itype ty i) (ftype ty r)) /\ room_f B ty r
  end.
Fixpoint room_b (B : Z) (ty : nat -> rep) (b : bexpr) : Prop :=
  match b with
  | BCmp _ l r => room B (common_rep (ftype ty l) (ftype ty r)) /\ room_f B ty l /\ room_f B ty r
  | BCmpInt _ l i => room B (common_rep (ftype ty l) (itype ty i)) /\ room_f B ty l
  | BIntCmp _ i r => room B (common_rep (itype ty i) (ftype ty r)) /\ room_f B ty r
  | BNot b => room_b B ty b
  | BAnd x y | BOr x y => room_b B ty x /\ room_b B ty y
  end.
Fixpoint room_s (B : Z) (ty : nat -> rep) (c : stmt) : Prop :=
  match c with
  | SSkip => True
  | SAssign x e => room_f B ty e
  | SOpAssign _ x e => room B (ty x) /\ room_f B ty e
  | SOpAssignInt _ x i => room B (ty x)
  | SSeq x y => room_s B ty x /\ room_s B ty y
  | SIf b x y => room_b B ty b /\ room_s B ty x /\ room_s B ty y
  | SWhile b x => room_b B ty b /\ room_s B ty x
  end.

(** ** A program with a loop

    The program: k = 0; acc = 0; while (k < n) { k += 1; acc += 1 / (k * (k + 1)); },
    with n, k, acc the variables 0, 1, 2, all of type [t]. *)
Definition sum_body : stmt :=
  SSeq (SOpAssignInt Plus 1 (IConst int32 1))
       (SOpAssign Plus 2
          (EIntBin Divides (IConst int32 1)
             (EBin Multiplies (EVar 1) (EBinInt Plus (EVar 1) (IConst int32 1))))).
Definition sum_loop : stmt := SWhile (BCmp Lt (EVar 1) (EVar 0)) sum_body.
Definition sum_program : stmt :=
  SSeq (SAssign 1 (EOfInt (IConst int32 0)))
       (SSeq (SAssign 2 (EOfInt (IConst int32 0))) sum_loop).
