(** * The work of deriving a key, counted in look-ups in the tables of the hash function. *)
From Coq Require Import ZArith List.
Import ListNotations.
From Verif Require Import SpecTrace SpecTraceHash.
Open Scope nat_scope.

(** One call of the compression function makes 25 passes of 64 look-ups. *)
Definition compressions (n : nat) : nat := 1600 * n.
Definition lookups (steps : list event) : nat := length (hash_indices steps).
(** A tag of [n] octets under HMAC with Streebog-512: the inner hash is over 64 + n octets and makes one call for every
    whole block, one for the padded rest, and two for N and Sigma; the outer hash is over 128 octets and makes 2 + 3 calls. *)
Definition tag_calls (n : nat) : nat := (64 + n) / 64 + 3 + (2 + 3).
(** PBKDF2 as described takes [c] tags for every block of 64 octets: one over the salt and the number of the block
    (4 octets), the others over the tag before. *)
Definition standard_work (salt c blocks : nat) : nat := compressions (blocks * (tag_calls (salt + 4) + (c - 1) * tag_calls 64)).
(** With the first tag computed once more. *)
Definition actual_work (salt c blocks : nat) : nat := compressions (blocks * (tag_calls (salt + 4) + tag_calls (salt + 4) + (c - 1) * tag_calls 64)).
