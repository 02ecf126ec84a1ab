(** * Specification: the message hashed by a history of updates (properties C49-C51).

    This file does not refer to the model of the code. *)
From Coq Require Import List ZArith.
Import ListNotations.

(** [done] consists of whole 64-octet blocks, [t] is pending.  A chunk that completes the pending
    part exactly leaves the pending part in place. *)
Definition feed (p : list Z * list Z) (c : list Z) : list Z * list Z :=
  let (done, t) := p in
  let m := t ++ c in
  let k := 64 * (length m / 64) in
  (done ++ firstn k m, if length m mod 64 =? 0 then t else skipn k m).

Definition effective (cs : list (list Z)) : list Z :=
  let (done, t) := fold_left feed cs ([], []) in done ++ t.

(** No chunk ends on a block boundary while [t > 0] octets are pending before it. *)
Fixpoint safe (t : nat) (cs : list (list Z)) : Prop :=
  match cs with
  | [] => True
  | c :: cs' => (t = 0 \/ (t + length c) mod 64 <> 0) /\ safe ((t + length c) mod 64) cs'
  end.
