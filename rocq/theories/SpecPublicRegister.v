(** * The register that a cleared generator can continue with

    The last 63 octets of the characters "/x00" repeated, as a number.  This file does not refer to the model of the code. *)
From Coq Require Import List ZArith.
Import ListNotations.
Open Scope Z_scope.

Definition public_octets : list Z := [0x78; 0x30; 0x30] ++ concat (repeat [0x2f; 0x78; 0x30; 0x30] 15).
Definition public_register : Z := fold_left (fun n x => 256 * n + x) public_octets 0.
