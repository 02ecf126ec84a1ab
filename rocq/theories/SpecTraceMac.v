(** * The decisions taken in a line of the modes, and the two highest bits of a block. *)
From Coq Require Import ZArith List.
From Verif Require Import SpecModes SpecTrace.
Import ListNotations.
Open Scope Z_scope.

(** How the tests in a line of gostcipher/gost_34_13_2015.py went. *)
Definition decisions (line : Z) (steps : list event) : list bool :=
  flat_map (fun e => match e with Test FModes l b => if l =? line then [b] else [] | _ => [] end) steps.
(** The highest and the second highest bit of the encryption of the zero block of [n] octets. *)
Definition high_bits (E : list Z -> list Z) (n : nat) : bool * bool :=
  let r := be_value (E (repeat 0 n)) in (Z.testbit r (8 * Z.of_nat n - 1), Z.testbit r (8 * Z.of_nat n - 2)).
