(** Specification: exact rational arithmetic, independent of the code.

    Nothing here calls the modelled functions; only the data types [raw],
    [args], [arith_op], [cmp_op] are shared with the model. *)

From Coq Require Import ZArith QArith Bool.
From Verif Require Import Machine Raw Ops.

(** The value of a fraction; a zero denominator is "undefined". *)
Definition value (r : raw) : option Q :=
  if Z.eqb (den r) 0 then None
  else Some (inject_Z (num r) / inject_Z (den r))%Q.

(** Equality of possibly undefined values. *)
Definition same_value (x y : option Q) : Prop :=
  match x, y with
  | Some p, Some q => (p == q)%Q
  | None, None => True
  | _, _ => False
  end.

(** Values of the two operands of an operator. *)
Definition left_value (a : args) : option Q :=
  match a with
  | RR l _ => value l
  | RI l _ => value l
  | IR l _ => Some (inject_Z l)
  end.
Definition right_value (a : args) : option Q :=
  match a with
  | RR _ r => value r
  | RI _ r => Some (inject_Z r)
  | IR _ r => value r
  end.

(** Both operands are defined. *)
Definition defined_args (a : args) : Prop :=
  left_value a <> None /\ right_value a <> None.

(** Integer part (toward zero) of a rational. *)
Definition Qtrunc (q : Q) : Z := Z.quot (Qnum q) (Zpos (Qden q)).

(** Exact arithmetic on rationals; division and remainder by zero have no
    value. *)
Definition exact (op : arith_op) (x y : Q) : option Q :=
  match op with
  | Plus => Some (x + y)
  | Minus => Some (x - y)
  | Multiplies => Some (x * y)
  | Divides => if Qeq_bool y 0 then None else Some (x / y)
  | Modulus =>
      if Qeq_bool y 0 then None
      else Some (x - y * inject_Z (Qtrunc (x / y)))
  end%Q.

Definition exact_opt (op : arith_op) (x y : option Q) : option Q :=
  match x, y with
  | Some p, Some q => exact op p q
  | _, _ => None
  end.

(** Exact comparison; a comparison with an undefined operand is false, except
    "different". *)
Definition exact_cmp (op : cmp_op) (x y : Q) : bool :=
  match op with
  | Eq => Qeq_bool x y
  | Ne => negb (Qeq_bool x y)
  | Lt => negb (Qle_bool y x)
  | Le => Qle_bool x y
  | Gt => negb (Qle_bool x y)
  | Ge => Qle_bool y x
  end.

Definition exact_cmp_opt (op : cmp_op) (x y : option Q) : bool :=
  match x, y with
  | Some p, Some q => exact_cmp op p q
  | _, _ => match op with Ne => true | _ => false end
  end.

(** Lowest terms with a positive denominator, or 0/0. *)
Definition canonical (r : raw) : Prop :=
  (num r = 0 /\ den r = 0)%Z \/ (0 < den r /\ Z.gcd (num r) (den r) = 1)%Z.

(** All parts of the operands are values of the representation. *)
Definition wf_args (t : rep) (a : args) : Prop :=
  match a with
  | RR l r => wf_raw t l /\ wf_raw t r
  | RI l r => wf_raw t l /\ in_rep t r = true
  | IR l r => in_rep t l = true /\ wf_raw t r
  end.

(** All parts of the operands have magnitude at most [B]. *)
Definition raw_bounded (B : Z) (r : raw) : Prop :=
  (Z.abs (num r) <= B /\ Z.abs (den r) <= B)%Z.
Definition args_bounded (B : Z) (a : args) : Prop :=
  match a with
  | RR l r => raw_bounded B l /\ raw_bounded B r
  | RI l r => raw_bounded B l /\ (Z.abs r <= B)%Z
  | IR l r => (Z.abs l <= B)%Z /\ raw_bounded B r
  end.

(** Every fraction among the operands has a positive denominator. *)
Definition positive_dens (a : args) : Prop :=
  match a with
  | RR l r => (0 < den l /\ 0 < den r)%Z
  | RI l _ => (0 < den l)%Z
  | IR _ r => (0 < den r)%Z
  end.

(** The operation has an exact result in the representation: the divisor of %
    is not zero, and an unsigned difference is not negative. *)
Definition value_side (t : rep) (op : arith_op) (x y : option Q) : Prop :=
  match x, y with
  | Some p, Some q =>
      (op = Modulus -> ~ (q == 0)%Q) /\
      (op = Minus -> rsigned t = false -> (q <= p)%Q)
  | _, _ => False
  end.

(** The reduced_input steps of the policy include one that normalises signs. *)
Fixpoint normalises_inputs (o : ops) : bool :=
  match o with
  | Safe | Fast => false
  | ReducedInput o m =>
      match m with normalize_signs_mode => true | ignore_signs_mode => normalises_inputs o end
  | ReducedOutput o _ => normalises_inputs o
  end.

(** The policy is built on [safe]. *)
Fixpoint built_on_safe (o : ops) : bool :=
  match o with
  | Safe => true
  | Fast => false
  | ReducedInput o _ => built_on_safe o
  | ReducedOutput o _ => built_on_safe o
  end.

(** Operands on which the order comparisons of a policy are meaningful. *)
Definition order_domain (o : ops) (a : args) : Prop :=
  normalises_inputs o = true \/ positive_dens a \/
  match a with
  | RR l r => built_on_safe o = true \/ (0 < den l * den r)%Z
  | _ => False
  end.

(** Exchange of the operands. *)
Definition swap (a : args) : args :=
  match a with
  | RR l r => RR r l
  | RI l z => IR z l
  | IR z r => RI r z
  end.

(** Two executions have the same result, or are both undefined behaviour. *)
Definition agree {A : Type} (x y : res A) : Prop :=
  forall v, x = Ok v <-> y = Ok v.

(** Opposite of a possibly undefined value. *)
Definition opp_opt (x : option Q) : option Q :=
  match x with Some q => Some (- q)%Q | None => None end.

(** The outermost output step that decides the form normalises signs. *)
Fixpoint output_canonical (o : ops) : bool :=
  match o with
  | Safe | Fast => false
  | ReducedInput o _ => output_canonical o
  | ReducedOutput _ normalize_signs_mode => true
  | ReducedOutput o ignore_signs_mode => output_canonical o
  end.

(** Some step of the policy reduces the inputs. *)
Fixpoint reduces_inputs (o : ops) : bool :=
  match o with
  | Safe | Fast => false
  | ReducedInput _ _ => true
  | ReducedOutput o _ => reduces_inputs o
  end.

(** [scaled x y]: y is x with both parts multiplied by one positive integer. *)
Definition scaled (x y : raw) : Prop :=
  exists g, (0 < g /\ num y = g * num x /\ den y = g * den x)%Z.

(** The same policy, built on [safe]. *)
Fixpoint on_safe (o : ops) : ops :=
  match o with
  | Safe | Fast => Safe
  | ReducedInput o m => ReducedInput (on_safe o) m
  | ReducedOutput o m => ReducedOutput (on_safe o) m
  end.

(** Exactly one of <, ==, > on defined operands (whatever the policy and signs). *)
Definition exactly_one (a b c : bool) : Prop :=
  (a = true /\ b = false /\ c = false) \/ (a = false /\ b = true /\ c = false)
  \/ (a = false /\ b = false /\ c = true).

(** A property of the value, false of undefined. *)
Definition value_is (P : Q -> Prop) (v : raw) : Prop :=
  match value v with Some q => P q | None => False end.

(** The comparison with its order reversed. *)
Definition reverse (op : cmp_op) : cmp_op :=
  match op with Lt => Gt | Gt => Lt | Le => Ge | Ge => Le | Eq => Eq | Ne => Ne end.

(** Operands on which the order comparisons of a policy come out reversed. *)
Definition reversed_domain (o : ops) (a : args) : Prop :=
  normalises_inputs o = false /\
  match a with
  | RR l r => built_on_safe o = false /\ (den l * den r < 0)%Z
  | RI l _ => (den l < 0)%Z
  | IR _ r => (den r < 0)%Z
  end.
