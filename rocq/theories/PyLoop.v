(** * Computations that may raise and may not terminate.

    [fuel] bounds the number of iterations of every [while] loop.  A computation terminates if its
    outcome for some fuel is not [OutOfFuel]; it does not terminate if it is [OutOfFuel] for every fuel. *)
From Verif Require Import PyBase.

Inductive outcome (A : Type) : Type :=
| Returns (a : A)
| Raises (e : exn)
| OutOfFuel.
Arguments Returns {A}.
Arguments Raises {A}.
Arguments OutOfFuel {A}.

Definition bindO {A B} (c : outcome A) (k : A -> outcome B) : outcome B :=
  match c with Returns a => k a | Raises e => Raises e | OutOfFuel => OutOfFuel end.
Definition liftO {A} (r : res A) : outcome A := match r with Ok a => Returns a | Err e => Raises e end.

Notation "'let?' x ':=' c 'in' k" := (bindO c (fun x => k))
  (at level 61, x pattern, c at next level, k at level 61, right associativity).
