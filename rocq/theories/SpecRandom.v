(** * Specification of the generator (R 1323565.1.006-2017, hash-counter construction).

    The state is the integer [u] of the 63-octet register (seed followed by the counter); one step
    increments it and hashes it.  This file does not refer to the model of the code. *)
From Coq Require Import List ZArith.
From Verif Require Import SpecStreebog.
Import ListNotations.
Open Scope Z_scope.

(** [n] octets of [u], most significant first. *)
Definition be_bytes (n : nat) (u : Z) : list Z := rev (le_bytes n u).

Definition register_size : Z := 256 ^ 63.
Definition start (size_s : Z) (seed : list Z) : Z := le_value (rev seed) * 256 ^ (63 - size_s).
(** The seed part of the register. *)
Definition seed_part (size_s u : Z) : Z := u / 256 ^ (63 - size_s).

(** What is hashed in the [t]-th step after the register was [u]. *)
Definition input (u t : Z) : list Z := be_bytes 63 ((u + t) mod register_size).
Definition block (u t : Z) : list Z := streebog S512 (input u t).

(** [size] octets: whole blocks, then the last octets of one more block. *)
Definition whole (size : Z) : nat := Z.to_nat (size / 64).
Definition rest (size : Z) : nat := Z.to_nat (size mod 64).
Definition output (u size : Z) : list Z :=
  concat (map (fun t => block u (Z.of_nat t)) (seq 1 (whole size))) ++
  (if Nat.eqb (rest size) 0 then [] else skipn (64 - rest size) (block u (Z.of_nat (S (whole size))))).
(** The number of steps of one call. *)
Definition steps (size : Z) : Z := Z.of_nat (whole size + (if Nat.eqb (rest size) 0 then 0 else 1)).
