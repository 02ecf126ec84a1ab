(** * What the steps of hashing give away. *)
From Coq Require Import ZArith List.
Import ListNotations.
From Verif Require Import SpecStreebog SpecHmac SpecTrace.
Open Scope Z_scope.

(** The positions at which the tables are read. *)
Definition hash_index (e : event) : list Z := match e with Read FHash line operand i => if operand =? 1 then [i] else [] | _ => [] end.
Definition hash_indices (steps : list event) : list Z := flat_map hash_index steps.

(** One call of the compression function makes 25 passes over the tables, 64 look-ups each, in the order of the permutation P.
    The first pass is over h + N; the second is over K + m, where K = LPS(h + N). *)
Definition hash_block (l : list Z) : list Z := sX (LPS (sP (firstn 64 l))) (sP (firstn 64 (skipn 64 l))).
Fixpoint hash_blocks (n : nat) (l : list Z) : list Z :=
  match n with O => [] | S n' => hash_block l ++ hash_blocks n' (skipn 1600 l) end.
(** The padding taken off: zeros, and the one before them. *)
Fixpoint drop_zeros (l : list Z) : list Z := match l with 0 :: l' => drop_zeros l' | _ => l end.
Definition unpad (l : list Z) : list Z := rev (tl (drop_zeros (rev l))).
(** The last two calls are those for N and Sigma. *)
Definition hash_recover (steps : list event) : list Z :=
  let l := hash_indices steps in unpad (hash_blocks (length l / 1600 - 2) l).
(** The last calls made for a tag are those of the outer hash, over the key padded with zeros plus 0x5c in every octet
    and the inner hash: 64 + 32 or 64 + 64 octets, then the calls for N and Sigma. *)
Definition outer_calls (v : variant) : nat := match v with S256 => 4 | S512 => 5 end.
Definition hmac_recover (v : variant) (steps : list event) : list Z :=
  let l := hash_indices steps in with_pad 0x5c (hash_block (skipn (length l - 1600 * outer_calls v) l)).
