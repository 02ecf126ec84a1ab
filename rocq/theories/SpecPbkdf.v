(** * Specification of PBKDF2 (R 50.1.111-2016) with HMAC over Streebog-512.

    This file does not refer to the model of the code. *)
From Coq Require Import List ZArith.
From Verif Require Import SpecStreebog SpecHmac.
Import ListNotations.
Open Scope Z_scope.

(** The pseudo-random function. *)
Definition PRF (P m : list Z) : list Z := hmac S512 P m.

(** Four octets, most significant first. *)
Definition INT (i : Z) : list Z := [i / 2 ^ 24 mod 256; i / 2 ^ 16 mod 256; i / 2 ^ 8 mod 256; i mod 256].

(** [U P S i j] is U_{j+1} of block [i]. *)
Fixpoint U (P S : list Z) (i : Z) (j : nat) : list Z :=
  match j with
  | O => PRF P (S ++ INT i)
  | Datatypes.S j => PRF P (U P S i j)
  end.

Definition xor_list (a b : list Z) : list Z := map (fun p => Z.lxor (fst p) (snd p)) (combine a b).

(** The sum of U_1, ..., U_c for [c = 1 + n]. *)
Fixpoint T (P S : list Z) (i : Z) (n : nat) : list Z :=
  match n with
  | O => U P S i 0
  | Datatypes.S n' => xor_list (T P S i n') (U P S i n)
  end.

(** [c] iterations, [dk_len] octets. *)
Definition pbkdf2 (P S : list Z) (c : nat) (dk_len : nat) : list Z :=
  firstn dk_len (concat (map (fun i => T P S (Z.of_nat i) (c - 1)) (seq 1 ((dk_len + 63) / 64)))).
