(** A duration changed step by step.

    Client code of /repo/include/ieme/chrono.hpp:30-31: a variable of type
    ieme::chrono::duration, which is std::chrono::duration with a fractional
    representation, to which compound assignments are applied one after the other
    ([time.duration.arithmetic]). *)

From Coq Require Import ZArith List.
From Verif Require Import Machine Raw Ops Fraction Chrono Chrono2.
Import ListNotations.

(** d += e, d -= e, d %= e for a duration e of any period; d *= f, d /= f for a fraction
    f, applied to the count. On durations of the type at chrono.hpp:30-31. *)
Inductive step : Type :=
| Move (op : arith_op) (pd : period) (c : count)
| Scale (op : arith_op) (f : raw).

(** One of these steps, on durations of the type at chrono.hpp:30-31. *)
Definition do_step (p : policy) (t : rep) (pl : period) (l : raw) (s : step) : option (res raw) :=
  match s with
  | Move op pd c => duration_assign p t op pl pd l c
  | Scale op f => Some (f_assign p t op l (FracOperand t f))
  end.

(** [None] if a conversion between the periods does not compile. Client code of
    chrono.hpp:30-31. *)
Fixpoint run_steps (p : policy) (t : rep) (pl : period) (l : raw) (ss : list step) : option (res raw) :=
  match ss with
  | [] => Some (Ok l)
  | s :: ss =>
      match do_step p t pl l s with
      | None => None
      | Some (UB u) => Some (UB u)
      | Some (Ok l') => run_steps p t pl l' ss
      end
  end.
