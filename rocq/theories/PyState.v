(** * Methods that raise and change their object.

    A method is a function from the object to a result (a value or an exception) and the
    object after the call.  What was assigned before an exception stays assigned. *)
From Verif Require Import PyBase.

Definition M (S A : Type) : Type := S -> res A * S.

Definition retM {S A} (a : A) : M S A := fun s => (Ok a, s).
Definition raiseM {S A} (e : exn) : M S A := fun s => (Err e, s).
Definition bindM {S A B} (c : M S A) (k : A -> M S B) : M S B := fun s =>
  match c s with
  | (Ok a, s') => k a s'
  | (Err e, s') => (Err e, s')
  end.
(** An expression that may raise but changes nothing. *)
Definition liftM {S A} (r : res A) : M S A := fun s => (r, s).
Definition getM {S} : M S S := fun s => (Ok s, s).
Definition putM {S} (s' : S) : M S unit := fun _ => (Ok tt, s').

Notation "'let!' x ':=' c 'in' k" := (bindM c (fun x => k))
  (at level 61, x pattern, c at next level, k at level 61, right associativity).
Notation "c ';!' k" := (bindM c (fun _ => k)) (at level 61, right associativity).

(** [for x in xs: acc = body(x, acc)] where the body may change the object. *)
Fixpoint forM {S A B} (xs : list A) (acc : B) (body : A -> B -> M S B) : M S B :=
  match xs with
  | [] => retM acc
  | x :: xs' => let! acc' := body x acc in forM xs' acc' body
  end.
