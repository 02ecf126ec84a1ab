(** * Specification: drawing a number below a bound by rejection.  This file does not refer to the model of the code. *)
From Coq Require Import List ZArith Lia Bool.
From Verif Require Import SpecModes.
Import ListNotations.
Open Scope Z_scope.

(** All lists of [n] elements of [l]; all octet strings of a given length; all sequences of [m] such strings. *)
Fixpoint tuples {A : Type} (l : list A) (n : nat) : list (list A) :=
  match n with O => [[]] | S n' => flat_map (fun a => map (cons a) (tuples l n')) l end.
Definition octet_values : list Z := map Z.of_nat (seq 0 256).
Definition strings (n : nat) : list (list Z) := tuples octet_values n.
Definition draws (n m : nat) : list (list (list Z)) := tuples (strings n) m.

(** The first number of a sequence that is below [q]. *)
Fixpoint first_below (q : Z) (d : list (list Z)) : option Z :=
  match d with [] => None | s :: d' => if be_value s <? q then Some (be_value s) else first_below q d' end.

(** In how many cases something happens. *)
Definition cases {A : Type} (f : A -> bool) (l : list A) : Z := Z.of_nat (length (filter f l)).
Definition gives (q k : Z) (d : list (list Z)) : bool := match first_below q d with Some k' => k' =? k | None => false end.
Definition gives_none (q : Z) (d : list (list Z)) : bool := match first_below q d with Some _ => false | None => true end.
