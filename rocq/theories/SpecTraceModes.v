(** * The number of operations of the block cipher in a call of a mode object. *)
From Coq Require Import ZArith List.
From Verif Require Import SpecTrace.
Open Scope Z_scope.

(** [encrypt] and [decrypt] of the two block ciphers are defined in lines 551, 760 and 532, 736. *)
Definition operations (steps : list event) : nat :=
  List.length (filter (fun e => match e with Enter FCipher l => (l =? 551) || (l =? 760) || (l =? 532) || (l =? 736) | _ => false end)%bool steps).

(** The number of pieces of [n] octets, the last one possibly shorter, in [m] octets. *)
Definition pieces (n m : Z) : Z := (m + n - 1) / n.
(** Padding completes the last piece (an empty message becomes one block); the second method adds one more block. *)
Definition padded_pieces (second : bool) (n m : Z) : Z := Z.max 1 (pieces n m) + if second then 1 else 0.
