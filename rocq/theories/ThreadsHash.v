(** * Several threads with one hash object *)
From Verif Require Import PyBase PyState Utils Streebog Threads.
Open Scope string_scope.
Open Scope list_scope.
Open Scope Z_scope.

(** gost_34_11_2012.py 839-864 [update], statement by statement. *)
Definition join (data : bytes) : M hash_obj bytes := let! self := getM in retM (h_buff self ++ data).
Definition count_blocks (data : bytes) : M hash_obj unit := let! self := getM in putM (set_num_block self (len data / _BLOCK_SIZE)).
Definition block_count : M hash_obj Z := let! self := getM in retM (h_num_block self).
Definition count_pad (data : bytes) : M hash_obj unit := let! self := getM in putM (set_pad_block_size self (_BLOCK_SIZE - len data mod _BLOCK_SIZE)).
Definition pad_count : M hash_obj Z := let! self := getM in retM (h_pad_block_size self).
Definition keep_rest (data : bytes) : M hash_obj unit := let! self := getM in putM (set_buff self (py_from data (- (_BLOCK_SIZE - h_pad_block_size self)))).
Definition p_block (data : bytes) (i : Z) : proc hash_obj unit :=
  let block := py_slice data i (i + _BLOCK_SIZE) in
  let& _ := act (let! self := getM in step_h (h_hash_n self) block) in
  let& _ := act (step_n _V_512) in
  act (step_sigma block).
Definition p_joined (data : bytes) : proc hash_obj unit :=
  let& _ := act (count_blocks data) in
  let& num_block := act block_count in
  let& _ := forP (py_range 0 (num_block * _BLOCK_SIZE) _BLOCK_SIZE) tt (fun i _ => p_block data i) in
  let& _ := act (count_pad data) in
  let& pad_block_size := act pad_count in
  if pad_block_size <? _BLOCK_SIZE then act (keep_rest data) else Ret tt.
Definition p_update (data : pyval) : proc hash_obj unit :=
  match data with
  | VBytes data => let& data := act (join data) in p_joined data
  | _ => Exc (GOSTHashError "GOSTHashError: invalid data value")
  end.
