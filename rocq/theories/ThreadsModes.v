(** * Several threads with one object of the modes CBC and CFB *)
From Verif Require Import PyBase PyState Utils CipherObj Modes Threads.
Open Scope string_scope.
Open Scope list_scope.
Open Scope Z_scope.

(** Statements that read one attribute; the block size, which never changes, is read once. *)
Definition the_block_size : M mode_obj Z := let! self := getM in retM (block_size self).
Definition vector (bs : Z) : M mode_obj bytes := let! self := getM in retM (py_slice (o_init_vect self) 0 bs).
Definition enciphered (x : bytes) : M mode_obj bytes := let! self := getM in liftM (co_encrypt (o_cipher self) x).
Definition deciphered (x : bytes) : M mode_obj bytes := let! self := getM in liftM (co_decrypt (o_cipher self) x).

(** gost_34_13_2015.py 636-640: one block in [GOST34132015cbc.encrypt]. *)
Definition cbc_enc_turn (bs : Z) (data : bytes) : Z -> bytes -> proc mode_obj bytes := fun i result =>
  let& v := act (vector bs) in
  let& cipher_block := act (enciphered (add_xor v (_get_block bs data i))) in
  let& _ := act (_set_init_vect (py_slice cipher_block 0 bs)) in
  Ret (result ++ cipher_block).
(** gost_34_13_2015.py 620-641 [GOST34132015cbc.encrypt]. *)
Definition p_cbc_encrypt (data : pyval) : proc mode_obj bytes :=
  let& data := act (padding_encrypt data) in
  let& bs := act the_block_size in
  let& result := forP (py_range 0 (_get_num_block bs data) 1) [] (cbc_enc_turn bs data) in
  Ret result.
(** gost_34_13_2015.py 659-663: one block in [GOST34132015cbc.decrypt]. *)
Definition cbc_dec_turn (bs : Z) (data : bytes) : Z -> bytes -> proc mode_obj bytes := fun i result =>
  let& internal := act (deciphered (_get_block bs data i)) in
  let& v := act (vector bs) in
  let cipher_block := add_xor v internal in
  let& _ := act (_set_init_vect (_get_block bs data i)) in
  Ret (result ++ cipher_block).
(** gost_34_13_2015.py 643-664 [GOST34132015cbc.decrypt]. *)
Definition p_cbc_decrypt (data : pyval) : proc mode_obj bytes :=
  let& data := act (check_ciphertext data) in
  let& bs := act the_block_size in
  let& result := forP (py_range 0 (_get_num_block bs data) 1) [] (cbc_dec_turn bs data) in
  Ret result.
(** gost_34_13_2015.py 703-707: one block in [GOST34132015cfb.encrypt]. *)
Definition cfb_enc_turn (bs : Z) (data : bytes) : Z -> bytes -> proc mode_obj bytes := fun i result =>
  let& gamma := act _get_gamma in
  let cipher_block := add_xor gamma (_get_block bs data i) in
  let& _ := act (_set_init_vect (py_slice cipher_block 0 bs)) in
  Ret (result ++ cipher_block).
(** gost_34_13_2015.py 708-710, 734-736: the rest of the data. *)
Definition p_final (bs : Z) (data result : bytes) : proc mode_obj bytes :=
  if negb (len data mod bs =? 0) then
    let& gamma := act _get_gamma in
    Ret (result ++ add_xor gamma (_get_final_block bs data))
  else Ret result.
(** gost_34_13_2015.py 686-710 [GOST34132015cfb.encrypt]. *)
Definition p_cfb_encrypt (data : pyval) : proc mode_obj bytes :=
  let& data := act (check_plaintext data) in
  let& bs := act the_block_size in
  let& result := forP (py_range 0 (_get_num_block bs data) 1) [] (cfb_enc_turn bs data) in
  p_final bs data result.
(** gost_34_13_2015.py 729-733: one block in [GOST34132015cfb.decrypt]. *)
Definition cfb_dec_turn (bs : Z) (data : bytes) : Z -> bytes -> proc mode_obj bytes := fun i result =>
  let& gamma := act _get_gamma in
  let cipher_block := _get_block bs data i in
  let& _ := act (_set_init_vect cipher_block) in
  Ret (result ++ add_xor gamma cipher_block).
(** gost_34_13_2015.py 712-736 [GOST34132015cfb.decrypt]. *)
Definition p_cfb_decrypt (data : pyval) : proc mode_obj bytes :=
  let& data := act (check_ciphertext data) in
  let& bs := act the_block_size in
  let& result := forP (py_range 0 (_get_num_block bs data) 1) [] (cfb_dec_turn bs data) in
  p_final bs data result.
