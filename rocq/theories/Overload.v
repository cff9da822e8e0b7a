(** Overload resolution for the operators of /repo/include/ieme/fraction.hpp,
    mixed_number.hpp and fraction_literals.hpp: which function template a compiler calls
    for operands of given types.  The rules are those of C++20: deduction
    ([temp.deduct.type]), removal of candidates whose types do not exist ([temp.deduct]),
    ranking of reference bindings ([over.ics.rank]), partial ordering
    ([temp.deduct.partial]), rewritten candidates ([over.match.oper]) and the choice of
    the best one ([over.match.best]).

    Simplifications: value categories are reduced to "modifiable lvalue or not"; partial
    ordering ignores the cv-qualification of references, which the ranking of bindings
    has decided before; operands of which neither is of a class of the library and
    functions of other namespaces are left out, and so are errors in the body of the
    function that is chosen. *)

From Coq Require Import List Bool Arith.
From Verif Require Import Machine Ops.
Import ListNotations.

(** C++ types: an arithmetic type, bool, void, any other type (such as a policy), the
    class templates, a bool as a template argument, and the types invented in partial
    ordering. The classes are at fraction.hpp:28-66, mixed_number.hpp:12-46 and
    fraction_literals.hpp:16-32 ([Den] is denominator_literal). *)
Inductive cty : Type :=
| Num (t : rep)
| Bool
| Void
| Other (n : nat)
| Frac (r o : cty)
| Mixed (w f o : cty)
| Den (s o : cty)
| Flag (b : bool)
| Invented (v : nat).

(** std::is_same_v, as at fraction.hpp:102. *)
Fixpoint cty_eqb (a b : cty) : bool :=
  match a, b with
  | Num t, Num u => rep_eqb t u
  | Bool, Bool | Void, Void => true
  | Other n, Other m | Invented n, Invented m => Nat.eqb n m
  | Frac r o, Frac r' o' | Den r o, Den r' o' => cty_eqb r r' && cty_eqb o o'
  | Flag b, Flag c => eqb b c
  | Mixed w f o, Mixed w' f' o' => cty_eqb w w' && cty_eqb f f' && cty_eqb o o'
  | _, _ => false
  end.

(** The type of a parameter, up to const and &: a template parameter, a type fixed by
    the class, or one of the class templates. As at fraction.hpp:87-88. *)
Inductive pat : Type :=
| PV (v : nat)
| PT (t : cty)
| PFrac (r o : pat)
| PMixed (w f o : pat)
| PDen (s o : pat).

(** Types written in a declaration: common_type_t of two parameters, a return type. As
    at fraction.hpp:86. *)
Inductive texp : Type :=
| TV (v : nat)
| TCommon (v w : nat)
| TFrac (r o : texp)
| TMixed (w f o : texp)
| TDen (s o : texp)
| TFlag (b : bool)
| TBool
| TVoid.

(** What a declaration depends on besides: std::common_type, std::is_convertible, and
    whether operator== is used for reversed operands and for != although the library
    declares != (yes in C++20 as published, no since P2468). Used at fraction.hpp:86,
    198 and 318. *)
Record world : Type := mkWorld {
  common : cty -> cty -> option cty;
  convertible : cty -> cty -> bool;
  rewrites : bool }.

(** Deduction: matching a type against a pattern. Of the parameters of a template such
    as fraction.hpp:85-88. *)
Definition env : Type := nat -> option cty.
(** Of one parameter, such as fraction.hpp:87. *)
Fixpoint deduce (p : pat) (t : cty) (e : env) : option env :=
  match p, t with
  | PV v, _ =>
      match e v with
      | None => Some (fun w => if Nat.eqb w v then Some t else e w)
      | Some u => if cty_eqb u t then Some e else None
      end
  | PT u, _ => if cty_eqb u t then Some e else None
  | PFrac r o, Frac r' o' | PDen r o, Den r' o' =>
      match deduce r r' e with Some e => deduce o o' e | None => None end
  | PMixed w f o, Mixed w' f' o' =>
      match deduce w w' e with
      | Some e => match deduce f f' e with Some e => deduce o o' e | None => None end
      | None => None
      end
  | _, _ => None
  end.
(** Of both parameters, such as fraction.hpp:87-88. *)
Definition deduce2 (p q : pat) (t u : cty) : option env :=
  match deduce p t (fun _ => None) with Some e => deduce q u e | None => None end.

(** Substitution into a type; [None]: it does not exist. As at fraction.hpp:86. *)
Fixpoint subst (w : world) (e : env) (x : texp) : option cty :=
  match x with
  | TV v => e v
  | TCommon a b => match e a, e b with Some t, Some u => common w t u | _, _ => None end
  | TFrac r o => match subst w e r, subst w e o with Some r, Some o => Some (Frac r o) | _, _ => None end
  | TMixed a f o =>
      match subst w e a, subst w e f, subst w e o with
      | Some a, Some f, Some o => Some (Mixed a f o)
      | _, _, _ => None
      end
  | TDen s o => match subst w e s, subst w e o with Some s, Some o => Some (Den s o) | _, _ => None end
  | TFlag b => Some (Flag b)
  | TBool => Some Bool
  | TVoid => Some Void
  end.

(** The templates. The names tell the kinds of the operands; those marked deleted exist
    to be rejected. fraction.hpp:85-493, mixed_number.hpp:57-90, fraction_literals.hpp:45-53. *)
Inductive name : Type :=
| FracFrac | FracNum | NumFrac | Deleted
| MixedMixed | MixedFrac | FracMixed | MixedNum | NumMixed
| FracDen | NumDen | FracUnary | DenUnary.

(** The condition on a template: none, std::common_type_t exists, the first argument is
    convertible to the second (enable_if_t<is_convertible_v>), the arguments differ
    (enable_if_t<!is_same_v>). As at fraction.hpp:86, 198, 102 and 318. *)
Inductive condition : Type :=
| Always
| HasCommon (v w : nat)
| Convertible (v w : nat)
| Differ (v w : nat).
(** As at fraction.hpp:102, 198 and 318. *)
Definition holds (w : world) (e : env) (c : condition) : bool :=
  match c with
  | Always => true
  | HasCommon a b => match subst w e (TCommon a b) with Some _ => true | None => false end
  | Convertible a b => match e a, e b with Some t, Some u => convertible w t u | _, _ => false end
  | Differ a b => match e a, e b with Some t, Some u => negb (cty_eqb t u) | _, _ => false end
  end.

(** A declaration; [modifies]: the first parameter is a reference to non-const.
    fraction.hpp:85-493, mixed_number.hpp:57-90, fraction_literals.hpp:45-53. *)
Record decl : Type := mkDecl {
  dname : name;
  first : pat;
  second : pat;
  modifies : bool;
  cond : condition;
  result : texp }.

(** operator+ and the other four on fractions (fraction.hpp:85-193): LeftRep 0,
    RightRep 1, Ops 2; LeftOps 2, RightOps 3. *)
Definition arithmetic : list decl :=
  let r := TFrac (TCommon 0 1) (TV 2) in
  [ mkDecl FracFrac (PFrac (PV 0) (PV 2)) (PFrac (PV 1) (PV 2)) false Always r;
    mkDecl FracNum (PFrac (PV 0) (PV 2)) (PV 1) false Always r;
    mkDecl NumFrac (PV 0) (PFrac (PV 1) (PV 2)) false Always r;
    mkDecl Deleted (PFrac (PV 0) (PV 2)) (PFrac (PV 1) (PV 3)) false (Differ 2 3) TVoid ].

(** operator+= and the other four (fraction.hpp:195-313). *)
Definition compound : list decl :=
  let r := TFrac (TV 0) (TV 2) in
  [ mkDecl FracFrac (PFrac (PV 0) (PV 2)) (PFrac (PV 1) (PV 2)) true (Convertible 1 0) r;
    mkDecl FracNum (PFrac (PV 0) (PV 2)) (PV 1) true (Convertible 1 0) r;
    mkDecl Deleted (PFrac (PV 0) (PV 2)) (PFrac (PV 1) (PV 3)) false (Differ 2 3) TVoid ].

(** operator== and the other five (fraction.hpp:315-493). *)
Definition comparison : list decl :=
  [ mkDecl FracFrac (PFrac (PV 0) (PV 2)) (PFrac (PV 1) (PV 2)) false (HasCommon 0 1) TBool;
    mkDecl FracNum (PFrac (PV 0) (PV 2)) (PV 1) false (HasCommon 0 1) TBool;
    mkDecl NumFrac (PV 0) (PFrac (PV 1) (PV 2)) false (HasCommon 0 1) TBool;
    mkDecl Deleted (PFrac (PV 0) (PV 2)) (PFrac (PV 1) (PV 3)) false (Differ 2 3) TVoid ].

(** operator+ on mixed numbers (mixed_number.hpp:57-90): WRep1 0, FRep1 1, WRep2 2,
    FRep2 3, Ops 4 (in the last two FRep 1). *)
Definition mixed_plus : list decl :=
  [ mkDecl MixedMixed (PMixed (PV 0) (PV 1) (PV 4)) (PMixed (PV 2) (PV 3) (PV 4)) false Always
      (TMixed (TCommon 0 2) (TCommon 1 3) (TV 4));
    mkDecl MixedFrac (PMixed (PV 0) (PV 1) (PV 4)) (PFrac (PV 3) (PV 4)) false Always
      (TMixed (TCommon 0 3) (TCommon 1 3) (TV 4));
    mkDecl FracMixed (PFrac (PV 3) (PV 4)) (PMixed (PV 0) (PV 1) (PV 4)) false Always
      (TMixed (TCommon 0 3) (TCommon 1 3) (TV 4));
    mkDecl MixedNum (PMixed (PV 0) (PV 1) (PV 4)) (PV 2) false Always
      (TMixed (TCommon 0 2) (TV 1) (TV 4));
    mkDecl NumMixed (PV 0) (PMixed (PV 2) (PV 1) (PV 4)) false Always
      (TMixed (TCommon 0 2) (TV 1) (TV 4)) ].

(** operator/ with a literal on the right (fraction_literals.hpp:45-53): IsSigned 0,
    Rep 1, Ops 2. *)
Definition literal_divides : list decl :=
  let r := TFrac (TV 1) (TV 2) in
  [ mkDecl FracDen (PFrac (PV 1) (PV 2)) (PDen (PV 0) (PV 2)) false Always r;
    mkDecl NumDen (PV 1) (PDen (PV 0) (PV 2)) false Always r ].

(** Operators as they are spelt. fraction.hpp:85-493, mixed_number.hpp:57-90, fraction_literals.hpp:45-53. *)
Inductive operator : Type :=
| OArith (op : arith_op)
| OAssign (op : arith_op)
| OCompare (op : cmp_op).
(** fraction.hpp:85-493, mixed_number.hpp:57-90, fraction_literals.hpp:45-53. *)
Definition declared (op : operator) : list decl :=
  match op with
  | OArith Plus => arithmetic ++ mixed_plus
  | OArith Divides => arithmetic ++ literal_divides
  | OArith _ => arithmetic
  | OAssign _ => compound
  | OCompare _ => comparison
  end.

(** Candidates: a declaration, how much it is rewritten (0: not, 1: == for !=, 2: with
    the operands exchanged). Made from fraction.hpp:85-493, mixed_number.hpp:57-90 and fraction_literals.hpp:45-53.
    *)
Record candidate : Type := mkCand { cdecl : decl; rewritten : nat }.
(** The declarations as they are: fraction.hpp:85-493, mixed_number.hpp:57-90, fraction_literals.hpp:45-53. *)
Definition plain_candidates (op : operator) : list candidate := map (fun d => mkCand d 0) (declared op).
(** A comparison of fraction.hpp:315-493 with its operands exchanged. *)
Definition exchange (d : decl) : decl :=
  mkDecl (dname d) (second d) (first d) (modifies d) (cond d) (result d).
(** Among fraction.hpp:85-493, mixed_number.hpp:57-90 and fraction_literals.hpp:45-53; == is at fraction.hpp:315-343.
    *)
Definition candidates (w : world) (op : operator) : list candidate :=
  if rewrites w then
    match op with
    | OCompare Eq => plain_candidates op ++ map (fun d => mkCand (exchange d) 2) comparison
    | OCompare Ne =>
        plain_candidates op ++ map (fun d => mkCand d 1) comparison
        ++ map (fun d => mkCand (exchange d) 2) comparison
    | _ => plain_candidates op
    end
  else plain_candidates op.

(** Viable candidates with their result types. [m]: the first operand is a modifiable
    lvalue. Among fraction.hpp:85-493, mixed_number.hpp:57-90 and fraction_literals.hpp:45-53. *)
Definition viable (w : world) (t u : cty) (m : bool) (c : candidate) : option cty :=
  let d := cdecl c in
  match deduce2 (first d) (second d) t u with
  | Some e => if holds w e (cond d) && implb (modifies d) m then subst w e (result d) else None
  | None => None
  end.

(** Partial ordering: [d] is at least as specialised as [d'] if the parameters of [d],
    with invented types for its template parameters, match those of [d']. Of templates
    such as fraction.hpp:85-88. *)
Fixpoint invent (p : pat) : cty :=
  match p with
  | PV v => Invented v
  | PT t => t
  | PFrac r o => Frac (invent r) (invent o)
  | PMixed w f o => Mixed (invent w) (invent f) (invent o)
  | PDen s o => Den (invent s) (invent o)
  end.
(** Of two templates of fraction.hpp:85-493, mixed_number.hpp:57-90 and fraction_literals.hpp:45-53. *)
Definition at_least (d d' : decl) : bool :=
  match deduce2 (first d') (second d') (invent (first d)) (invent (second d)) with Some _ => true | None => false end.
(** Of two templates of fraction.hpp:85-493, mixed_number.hpp:57-90 and fraction_literals.hpp:45-53. *)
Definition more_specialised (d d' : decl) : bool := at_least d d' && negb (at_least d' d).

(** [c] is a better candidate than [c']: a better binding of the first operand (a
    reference to non-const is better than one to const), then partial ordering, then the
    less rewritten. Among fraction.hpp:85-493, mixed_number.hpp:57-90 and fraction_literals.hpp:45-53. *)
Definition better (c c' : candidate) : bool :=
  let d := cdecl c in let d' := cdecl c' in
  if modifies d && negb (modifies d') then true
  else if modifies d' && negb (modifies d) then false
  else if more_specialised d d' then true
  else if more_specialised d' d then false
  else Nat.ltb (rewritten c) (rewritten c').

(** The outcome: the function chosen and the type of the call, no viable candidate, or
    no best one. Of a call of fraction.hpp:85-493, mixed_number.hpp:57-90 or fraction_literals.hpp:45-53. *)
Inductive outcome : Type :=
| Call (n : name) (rewriting : nat) (t : cty)
| NoMatch
| Ambiguous.

(** The viable candidates, each with its number. Among fraction.hpp:85-493 and
    mixed_number.hpp:57-90. *)
Definition viables (w : world) (t u : cty) (m : bool) (l : list candidate) : list (nat * candidate * cty) :=
  flat_map (fun x => match viable w t u m (snd x) with Some r => [(x, r)] | None => [] end)
    (combine (seq 0 (length l)) l).
(** A candidate better than all others ([over.match.best]), fraction.hpp:85-493,
    mixed_number.hpp:57-90. *)
Definition is_best (l : list (nat * candidate * cty)) (x : nat * candidate * cty) : bool :=
  forallb (fun y => Nat.eqb (fst (fst y)) (fst (fst x)) || better (snd (fst x)) (snd (fst y))) l.
(** The best of some candidates of fraction.hpp:85-493, mixed_number.hpp:57-90 and fraction_literals.hpp:45-53. *)
Definition choose (w : world) (t u : cty) (m : bool) (cs : list candidate) : outcome :=
  let l := viables w t u m cs in
  match l with
  | [] => NoMatch
  | _ =>
      match find (is_best l) l with
      | Some (_, c, r) => Call (dname (cdecl c)) (rewritten c) r
      | None => Ambiguous
      end
  end.
(** The outcome for an operator of fraction.hpp:85-493, mixed_number.hpp:57-90 or fraction_literals.hpp:45-53. *)
Definition resolve (w : world) (op : operator) (t u : cty) (m : bool) : outcome :=
  choose w t u m (candidates w op).

(** The unary operators + and - of fractions (fraction.hpp:77-83) and of literals
    (fraction_literals.hpp:37-43). *)
Definition unary_declared (minus : bool) : list (name * pat * texp) :=
  [ (FracUnary, PFrac (PV 0) (PV 1), TFrac (TV 0) (TV 1));
    (DenUnary, PDen (PV 0) (PV 1), TDen (if minus then TFlag true else TV 0) (TV 1)) ].
(** The outcome for one of them; no two take the same operand. fraction.hpp:77-83,
    fraction_literals.hpp:37-43. *)
Definition resolve_unary (w : world) (minus : bool) (t : cty) : outcome :=
  match
    flat_map (fun x =>
      match deduce (snd (fst x)) t (fun _ => None) with
      | Some e => match subst w e (snd x) with Some r => [(fst (fst x), r)] | None => [] end
      | None => []
      end) (unary_declared minus)
  with
  | [] => NoMatch
  | [(n, r)] => Call n 0 r
  | _ => Ambiguous
  end.

(** Constructors that take a fraction: the implicit copy constructor, the template for the
    policy of the class and the explicit template for any policy (fraction.hpp:42-47,
    mixed_number.hpp:27-32; a mixed number has no copy constructor for a fraction). *)
Inductive cname : Type := Copy | SamePolicy | AnyPolicy.
(** fraction.hpp:42-47, mixed_number.hpp:27-32. *)
Record ctor : Type := mkCtor { kname : cname; parameter : pat; template : bool; explicit : bool }.
(** fraction.hpp:42-47, mixed_number.hpp:27-32. *)
Definition templates (o : cty) : list ctor :=
  [ mkCtor SamePolicy (PFrac (PV 0) (PT o)) true false; mkCtor AnyPolicy (PFrac (PV 0) (PV 1)) true true ].
(** fraction.hpp:28-47. *)
Definition fraction_ctors (r o : cty) : list ctor := mkCtor Copy (PT (Frac r o)) false false :: templates o.
(** mixed_number.hpp:27-32. *)
Definition mixed_ctors (o : cty) : list ctor := templates o.

(** The best constructor for an argument of type [t]: an implicit conversion leaves out
    the explicit ones; a function is better than a template, and a more specialised
    template better than another. [None]: there is no viable one or no best one.
    fraction.hpp:42-47, mixed_number.hpp:27-32. *)
Definition accepts (implicit : bool) (t : cty) (k : ctor) : bool :=
  match deduce (parameter k) t (fun _ => None) with Some _ => negb (implicit && explicit k) | None => false end.
(** Partial ordering of the templates at fraction.hpp:42-47 and mixed_number.hpp:27-32.
    *)
Definition at_least1 (p q : pat) : bool :=
  match deduce q (invent p) (fun _ => None) with Some _ => true | None => false end.
(** Which of two constructors of fraction.hpp:42-47 is better. *)
Definition better_ctor (k k' : ctor) : bool :=
  if template k' && negb (template k) then true
  else if template k && negb (template k') then false
  else at_least1 (parameter k) (parameter k') && negb (at_least1 (parameter k') (parameter k)).
(** The same constructor of fraction.hpp:42-47. *)
Definition cname_eqb (a b : cname) : bool :=
  match a, b with Copy, Copy | SamePolicy, SamePolicy | AnyPolicy, AnyPolicy => true | _, _ => false end.
(** The constructor chosen among fraction.hpp:42-47 or mixed_number.hpp:27-32. *)
Definition construct (implicit : bool) (l : list ctor) (t : cty) : option cname :=
  let l := filter (accepts implicit t) l in
  match find (fun k => forallb (fun k' => cname_eqb (kname k') (kname k) || better_ctor k k') l) l with
  | Some k => Some (kname k)
  | None => None
  end.

(** std::common_type and std::is_convertible on arithmetic types, fractions and mixed
    numbers of them: the conversions are those of the constructors
    (fraction.hpp:40-47, mixed_number.hpp:24-32, fraction_literals.hpp:26) and of the conversion function of a mixed
    number (mixed_number.hpp:36); conversions both ways leave no common type. *)
Definition cxx_convertible (t u : cty) : bool :=
  cty_eqb t u ||
  match t, u with
  | Num _, (Num _ | Frac (Num _) _ | Mixed (Num _) _ _ | Den _ _) => true
  | Frac _ o, (Frac _ o' | Mixed _ _ o') => cty_eqb o o'
  | Mixed (Num a) (Num b) o, Frac (Num c) o' => rep_eqb (common_rep a b) c && cty_eqb o o'
  | _, _ => false
  end.
(** std::common_type with the conversions at fraction.hpp:40-47 and
    mixed_number.hpp:24-36. *)
Definition cxx_common (t u : cty) : option cty :=
  if cty_eqb t u then Some t
  else
    match t, u with
    | Num a, Num b => Some (Num (common_rep a b))
    | _, _ =>
        match cxx_convertible t u, cxx_convertible u t with
        | true, false => Some u
        | false, true => Some t
        | _, _ => None
        end
    end.
(** The library as it is: fraction.hpp:28-66, mixed_number.hpp:12-46. *)
Definition cxx (r : bool) : world := mkWorld cxx_common cxx_convertible r.
