(** * Several threads with one PBKDF object *)
From Verif Require Import PyBase PyState Utils Streebog Hmac Pbkdf Threads.
Open Scope string_scope.
Open Scope list_scope.
Open Scope Z_scope.

(** r_50_1_111_2016.py 102-105 [_u_first], 107-110 [_u_iter]: a call of a method of the HMAC object is one action. *)
Definition p_u_first : proc pbkdf_obj bytes :=
  let& _ := act (on_hmac hmac_reset) in
  let& _ := act (let! self := getM in on_hmac (hmac_update (VBytes (p_salt self ++ int_to_bytearray (p_counter self) 4)))) in
  act (on_hmac hmac_digest).
Definition p_u_iter (u_prev : bytes) : proc pbkdf_obj bytes :=
  let& _ := act (on_hmac hmac_reset) in
  let& _ := act (on_hmac (hmac_update (VBytes u_prev))) in
  act (on_hmac hmac_digest).
(** r_50_1_111_2016.py 112-118 [_f]. *)
Definition rounds_of : M pbkdf_obj (list Z) := let! self := getM in liftM (range_1 (p_iterations self)).
Definition p_f : proc pbkdf_obj bytes :=
  let& t := p_u_first in
  let& internal := p_u_first in
  let& rounds := act rounds_of in
  let& r :=
    forP rounds (t, internal)
      (fun _ '(t, internal) =>
         let& internal := p_u_iter internal in
         Ret (add_xor t internal, internal)) in
  Ret (fst r).
(** r_50_1_111_2016.py 120-128 [_calculate_pbkdf]. *)
Definition put_blocks (n : Z) : M pbkdf_obj unit := let! self := getM in putM (p_set_num_block self n).
Definition one_more : M pbkdf_obj unit := let! self := getM in putM (p_set_num_block self (p_num_block self + 1)).
Definition blocks_of : M pbkdf_obj Z := let! self := getM in retM (p_num_block self).
Definition put_number (i : Z) : M pbkdf_obj unit := let! self := getM in putM (p_set_counter self i).
Definition p_blocks : proc pbkdf_obj bytes :=
  let& n := act blocks_of in
  forP (py_range 1 (n + 1) 1) []
    (fun i result =>
       let& _ := act (put_number i) in
       let& t := p_f in
       Ret (result ++ t)).
Definition p_calculate (dk_len : Z) : proc pbkdf_obj bytes :=
  let& _ := act (put_blocks (dk_len / _PBKDF_BLOCK_SIZE)) in
  let& _ := if negb (dk_len mod _PBKDF_BLOCK_SIZE =? 0) then act one_more else Ret tt in
  p_blocks.
(** r_50_1_111_2016.py 130-146 [derive]. *)
Definition p_derive (dk_len : Z) : proc pbkdf_obj bytes :=
  if dk_len >? (2 ^ 32 - 1) * 64
  then Exc (GOSTPBKDFError "GOSTPBKDFError: invalid size of the derived key")
  else let& r := p_calculate dk_len in Ret (py_upto r dk_len).
