(** * What the steps of making a cipher object, and of a single block operation, give away. *)
From Coq Require Import ZArith List.
Import ListNotations.
From Verif Require Import SpecKuznechik SpecTrace.
Open Scope Z_scope.

(** The indices of the look-ups in the inverse table of Kuznechik (line 467). *)
Definition kuz_rev_indices (steps : list event) : list Z :=
  flat_map (fun e => match e with Read FCipher line operand i => if (line =? 467) && (operand =? 1) then [i] else [] | _ => [] end) steps.
(** The [n]-th block of 16 indices. *)
Definition row (n : nat) (l : list Z) : list Z := firstn 16 (skipn (16 * n) l).

(** Making an object: the first two rows are the left halves of the first two pairs of the schedule with the constants added. *)
Definition kuz_new_recover (steps : list event) : list Z :=
  let x0 := row 0 (kuz_indices steps) in
  let x1 := row 1 (kuz_indices steps) in
  kX x0 (kC 1) ++ kX (kX x1 (kC 2)) (kL (kS x0)).

(** One step of the key schedule backwards, and the eight steps from the second pair of round keys to the key. *)
Definition unF (c : list Z) (p : list Z * list Z) : list Z * list Z := (snd p, kX (kL (kS (kX c (snd p)))) (fst p)).
Definition unschedule (p : list Z * list Z) : list Z * list Z := fold_left (fun p i => unF (kC i) p) [8%nat; 7%nat; 6%nat; 5%nat; 4%nat; 3%nat; 2%nat; 1%nat] p.
(** A single encryption: two neighbouring rows differ by a round key; the third and the fourth round key give the key, and that gives the block. *)
Definition kuz_enc_recover (steps : list event) : list Z * list Z :=
  let x n := row n (kuz_indices steps) in
  let k := unschedule (kX (x 2%nat) (kL (kS (x 1%nat))), kX (x 3%nat) (kL (kS (x 2%nat)))) in
  (fst k ++ snd k, kX (fst k) (x 0%nat)).
(** A single decryption goes through the rounds in the other direction. *)
Definition kuz_dec_recover (steps : list event) : list Z * list Z :=
  let z n := row n (kuz_rev_indices steps) in
  let k := unschedule (kX (kL (z 7%nat)) (kS_inv (z 6%nat)), kX (kL (z 6%nat)) (kS_inv (z 5%nat))) in
  (fst k ++ snd k, kX (last (round_keys (fst k ++ snd k)) []) (kL (z 0%nat))).
