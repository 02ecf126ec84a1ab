(** * Every [z]-th element of a list *)
From Coq Require Import List.
Import ListNotations.

(** The elements at the positions i, i + z, i + 2 z, ... *)
Fixpoint every {A} (z i : nat) (l : list A) : list A :=
  match l with
  | [] => []
  | x :: l => match i with O => x :: every z (z - 1) l | S i => every z i l end
  end.
