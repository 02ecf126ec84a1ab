(** * What the steps of one call of [random] give away. *)
From Coq Require Import ZArith List.
Import ListNotations.
From Verif Require Import SpecStreebog SpecTrace SpecTraceHash SpecRandom.
Open Scope Z_scope.

(** The first call of the compression function is over the padded register of the first step; the register was
    incremented before. *)
Definition register_before (steps : list event) : Z := (le_value (rev (unpad (hash_block (hash_indices steps)))) - 1) mod register_size.
(** The answer of the call of [random] that is [j] calls after (before, if negative) the one whose steps were seen. *)
Definition predicted (size : Z) (seen : list event) (j : Z) : list Z := output ((register_before seen + j * steps size) mod register_size) size.
(** The first [sz] octets of the register. *)
Definition seen_seed (sz : nat) (seen : list event) : list Z := firstn sz (be_bytes 63 (register_before seen)).
