(** * Specification of the hash state after the last stage

    The standard ends with the hash; here the state is kept, as an object does after the public [hash_final]. *)
From Verif Require Import PyBase SpecKuznechik SpecStreebog.
Open Scope list_scope.
Open Scope Z_scope.

(** The state that stage 3 leaves, with the hash as the chaining value. *)
Definition final_state (s : state) (m : list Z) : state :=
  {| st_h := stage3 s m; st_N := (st_N s + 8 * Z.of_nat (length m)) mod 2 ^ 512; st_Sigma := (st_Sigma s + le_value (pad m)) mod 2 ^ 512 |}.
(** The two last compressions of stage 3, without a new block. *)
Definition close (s : state) : list Z := sg 0 (sg 0 (st_h s) (le_bytes 64 (st_N s))) (le_bytes 64 (st_Sigma s)).
(** Stage 3 done, then the padded block absorbed once more as if it were a full block, and the two last compressions. *)
Definition streebog_twice (v : variant) (m : list Z) : list Z :=
  let (s, rest) := stage2 (length m / 64) (stage1 v) m in
  skipn (64 - hash_bytes v) (close (absorb (final_state s rest) (pad rest))).
