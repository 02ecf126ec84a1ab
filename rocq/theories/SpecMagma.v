(** * Specification: the block cipher Magma (GOST R 34.12-2015 section 5, RFC 8891).

    A half block is an integer below 2^32, a block a pair (a_1, a_0).  This file does not refer
    to the model of the code. *)
From Coq Require Import List ZArith.
Import ListNotations.
Open Scope Z_scope.

(** RFC 8891 4.1. *)
Definition magma_pi : list (list Z) := [
  [12; 4; 6; 2; 10; 5; 11; 9; 14; 8; 13; 7; 0; 3; 15; 1];
  [6; 8; 2; 3; 9; 10; 5; 12; 1; 14; 4; 7; 11; 13; 0; 15];
  [11; 3; 5; 8; 2; 15; 10; 13; 14; 1; 7; 4; 12; 9; 6; 0];
  [12; 8; 2; 1; 13; 4; 15; 6; 7; 0; 10; 5; 3; 14; 9; 11];
  [7; 15; 5; 10; 8; 1; 6; 13; 0; 9; 3; 14; 11; 4; 2; 12];
  [5; 13; 15; 6; 9; 2; 12; 10; 11; 7; 8; 1; 4; 3; 14; 0];
  [8; 14; 2; 5; 6; 9; 1; 12; 15; 4; 11; 0; 13; 10; 3; 7];
  [1; 7; 14; 13; 0; 5; 8; 3; 4; 15; 10; 6; 9; 12; 11; 2]].

(** RFC 8891 4.2: t substitutes the eight nibbles, g adds the key, substitutes and rotates. *)
Definition mt (a : Z) : Z :=
  fold_right Z.add 0
    (map (fun i => nth (Z.to_nat ((a / 16 ^ Z.of_nat i) mod 16)) (nth i magma_pi []) 0 * 16 ^ Z.of_nat i)
       (seq 0 8)).
Definition rotl11 (a : Z) : Z := (a * 2 ^ 11) mod 2 ^ 32 + a / 2 ^ 21.
Definition mg (k a : Z) : Z := rotl11 (mt ((a + k) mod 2 ^ 32)).

Definition mG (k : Z) (a : Z * Z) : Z * Z := (snd a, Z.lxor (mg k (snd a)) (fst a)).
Definition mG_fin (k : Z) (a : Z * Z) : Z * Z := (Z.lxor (mg k (snd a)) (fst a), snd a).

(** RFC 8891 4.3: K_1..K_8 are the 32-bit words of the key, most significant first. *)
Definition magma_round_keys (key : Z) : list Z :=
  let w := map (fun i => (key / 2 ^ (32 * (7 - Z.of_nat i))) mod 2 ^ 32) (seq 0 8) in
  w ++ w ++ w ++ rev w.

(** RFC 8891 4.4: rounds with all keys but the last, then the final round. *)
Fixpoint magma_rounds (ks : list Z) (a : Z * Z) : Z * Z :=
  match ks with
  | [] => a
  | [k] => mG_fin k a
  | k :: ks' => magma_rounds ks' (mG k a)
  end.

(** Blocks and keys as integers. *)
Definition split32 (a : Z) : Z * Z := (a / 2 ^ 32, a mod 2 ^ 32).
Definition join32 (a : Z * Z) : Z := fst a * 2 ^ 32 + snd a.
Definition spec_magma_encrypt (key a : Z) : Z := join32 (magma_rounds (magma_round_keys key) (split32 a)).
Definition spec_magma_decrypt (key a : Z) : Z := join32 (magma_rounds (rev (magma_round_keys key)) (split32 a)).
