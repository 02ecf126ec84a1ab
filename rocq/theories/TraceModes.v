(** * The steps of the modes of encryption.

    The methods [encrypt] and [decrypt] of gostcipher/gost_34_13_2015.py for byte strings, with the steps they go
    through, as in TraceCipher.v; the functions return the value and the object as it is left.  Reading the property
    [block_size] (271-279) and slicing are not steps. *)
From Verif Require Import PyBase PyState PyLoop Utils CipherObj Modes SpecTrace Trace TraceCipher TraceCipher2.
Open Scope string_scope.
Open Scope list_scope.
Open Scope Z_scope.

(** The methods of the attribute [_cipher_obj] (gost_34_12_2015.py 551-568, 760-783 [encrypt]; 532-549, 736-758 [decrypt]). *)
Definition t_co_encrypt (c : cipher_obj) (block : bytes) : T bytes :=
  match c with KuzObj keys => t_kuz_encrypt keys block | MagmaObj keys => t_magma_encrypt keys block end.
Definition t_co_decrypt (c : cipher_obj) (block : bytes) : T bytes :=
  match c with KuzObj keys => t_kuz_decrypt keys block | MagmaObj keys => t_magma_decrypt keys block end.

(** gost_34_13_2015.py 249-250 [_get_num_block]. *)
Definition t_get_num_block (bs : Z) (data : bytes) : T Z :=
  at_ Enter FModes 249 then retT (len data / bs).
(** gost_34_13_2015.py 252-259 [_get_pad_size]. *)
Definition t_get_pad_size (bs : Z) (data : bytes) : T Z :=
  at_ Enter FModes 252 then
  if_ FModes 253 (len data <? bs) (retT (bs - len data))
    (if_ FModes 255 (len data mod bs =? 0) (retT 0) (retT (bs - len data mod bs))).
(** gost_34_13_2015.py 261-264 [_get_block]. *)
Definition t_get_block (bs : Z) (data : bytes) (count_block : Z) : T bytes :=
  at_ Enter FModes 261 then retT (_get_block bs data count_block).
(** gost_34_13_2015.py 302-319 and 322-339 [GOST34132015Cipher.encrypt], [decrypt] for byte strings. *)
Definition t_check_plaintext (data : bytes) : T bytes :=
  at_ Enter FModes 302 then at_ Test FModes 316 false then retT data.
Definition t_check_ciphertext (data : bytes) : T bytes :=
  at_ Enter FModes 322 then at_ Test FModes 336 false then retT data.
(** gost_34_13_2015.py 376-377 [_set_pad_mode_1] and 379-380 [_set_pad_mode_2]. *)
Definition t_set_pad_mode_1 (bs : Z) (data : bytes) : T bytes :=
  at_ Enter FModes 376 then
  do n := t_get_pad_size bs data in
  retT (data ++ py_repeat 0x00 n).
Definition t_set_pad_mode_2 (bs : Z) (data : bytes) : T bytes :=
  at_ Enter FModes 379 then
  do n := t_get_pad_size bs data in
  retT (data ++ [0x80] ++ py_repeat 0x00 (bs + n - 1)).
(** gost_34_13_2015.py 382-388 [_set_padding]. *)
Definition t_set_padding (bs : Z) (data : bytes) (pad_mode : Z) : T bytes :=
  at_ Enter FModes 382 then
  if_ FModes 384 (pad_mode =? PAD_MODE_1) (t_set_pad_mode_1 bs data)
    (if_ FModes 386 (pad_mode =? PAD_MODE_2) (t_set_pad_mode_2 bs data) (retT data)).
(** gost_34_13_2015.py 391-406 and 409-424 [GOST34132015CipherPadding.encrypt], [decrypt]. *)
Definition t_padding_encrypt (data : bytes) (self : mode_obj) : T bytes :=
  at_ Enter FModes 391 then
  do data := t_check_plaintext data in
  t_set_padding (block_size self) data (o_pad_mode self).
Definition t_padding_decrypt (data : bytes) : T bytes :=
  at_ Enter FModes 409 then t_check_ciphertext data.
(** gost_34_13_2015.py 484-499 and 502-517 [GOST34132015CipherFeedBack.encrypt], [decrypt]. *)
Definition t_feedback_encrypt (data : bytes) : T bytes :=
  at_ Enter FModes 484 then t_check_plaintext data.
Definition t_feedback_decrypt (data : bytes) : T bytes :=
  at_ Enter FModes 502 then t_check_ciphertext data.
(** gost_34_13_2015.py 465-466 [_get_gamma]. *)
Definition t_get_gamma (self : mode_obj) : T bytes :=
  at_ Enter FModes 465 then
  t_co_encrypt (o_cipher self) (py_slice (o_init_vect self) 0 (block_size self)).
(** gost_34_13_2015.py 468-473 [_set_init_vect]: only slices, and assignments to them. *)
Definition t_set_init_vect (data : bytes) (self : mode_obj) : T mode_obj :=
  at_ Enter FModes 468 then
  let bs := block_size self in
  let iv := o_init_vect self in
  let iter_iv_hi := py_slice iv bs (len iv) in
  let iv := py_slice_set iv 0 (len iv - bs) iter_iv_hi in
  let begin_iv_low := len iv - bs in
  let end_iv_low := len iv in
  let iv := py_slice_set iv begin_iv_low end_iv_low data in
  retT (set_iv self iv).
(** gost_34_13_2015.py 475-476 [_get_final_block]. *)
Definition t_get_final_block (bs : Z) (data : bytes) : T bytes :=
  at_ Enter FModes 475 then
  do n := t_get_num_block bs data in
  retT (py_from data (bs * n)).
(** gost_34_13_2015.py 478-481 [_final_cipher]. *)
Definition t_final_cipher (data : bytes) (self : mode_obj) : T bytes :=
  at_ Enter FModes 478 then
  do gamma := t_get_gamma self in
  do cipher_block := t_get_final_block (block_size self) data in
  t_add_xor gamma cipher_block.

(** gost_34_13_2015.py 561-562, 581-582: the bodies of the loops of ECB. *)
Definition t_ecb_encrypt_body (data : bytes) (self : mode_obj) (i : Z) (result : bytes) : T bytes :=
  do block := t_get_block (block_size self) data i in
  do b := t_co_encrypt (o_cipher self) block in
  retT (result ++ b).
Definition t_ecb_decrypt_body (data : bytes) (self : mode_obj) (i : Z) (result : bytes) : T bytes :=
  do block := t_get_block (block_size self) data i in
  do b := t_co_decrypt (o_cipher self) block in
  retT (result ++ b).
(** gost_34_13_2015.py 545-563 [GOST34132015ecb.encrypt]. *)
Definition t_ecb_encrypt (data : bytes) (self : mode_obj) : T (bytes * mode_obj) :=
  at_ Enter FModes 545 then
  do data := t_padding_encrypt data self in
  do n := t_get_num_block (block_size self) data in
  do result := t_for FModes 561 (py_range 0 n 1) [] (t_ecb_encrypt_body data self) in
  retT (result, self).
(** gost_34_13_2015.py 565-583 [GOST34132015ecb.decrypt]. *)
Definition t_ecb_decrypt (data : bytes) (self : mode_obj) : T (bytes * mode_obj) :=
  at_ Enter FModes 565 then
  do data := t_padding_decrypt data in
  do n := t_get_num_block (block_size self) data in
  do result := t_for FModes 581 (py_range 0 n 1) [] (t_ecb_decrypt_body data self) in
  retT (result, self).

(** gost_34_13_2015.py 637-640, 660-663: the bodies of the loops of CBC. *)
Definition t_cbc_encrypt_body (bs : Z) (data : bytes) (i : Z) (s : bytes * mode_obj) : T (bytes * mode_obj) :=
  let '(result, self) := s in
  do block := t_get_block bs data i in
  do internal := t_add_xor (py_slice (o_init_vect self) 0 bs) block in
  do cipher_block := t_co_encrypt (o_cipher self) internal in
  do self := t_set_init_vect (py_slice cipher_block 0 bs) self in
  retT (result ++ cipher_block, self).
Definition t_cbc_decrypt_body (bs : Z) (data : bytes) (i : Z) (s : bytes * mode_obj) : T (bytes * mode_obj) :=
  let '(result, self) := s in
  do block := t_get_block bs data i in
  do internal := t_co_decrypt (o_cipher self) block in
  do cipher_block := t_add_xor (py_slice (o_init_vect self) 0 bs) internal in
  do block := t_get_block bs data i in
  do self := t_set_init_vect block self in
  retT (result ++ cipher_block, self).
(** gost_34_13_2015.py 620-641 [GOST34132015cbc.encrypt]. *)
Definition t_cbc_encrypt (data : bytes) (self : mode_obj) : T (bytes * mode_obj) :=
  at_ Enter FModes 620 then
  do data := t_padding_encrypt data self in
  do n := t_get_num_block (block_size self) data in
  t_for FModes 636 (py_range 0 n 1) ([], self) (t_cbc_encrypt_body (block_size self) data).
(** gost_34_13_2015.py 643-664 [GOST34132015cbc.decrypt]. *)
Definition t_cbc_decrypt (data : bytes) (self : mode_obj) : T (bytes * mode_obj) :=
  at_ Enter FModes 643 then
  do data := t_padding_decrypt data in
  do n := t_get_num_block (block_size self) data in
  t_for FModes 659 (py_range 0 n 1) ([], self) (t_cbc_decrypt_body (block_size self) data).

(** gost_34_13_2015.py 704-707, 730-733, 776-779: the bodies of the loops of CFB and OFB. *)
Definition t_cfb_encrypt_body (bs : Z) (data : bytes) (i : Z) (s : bytes * mode_obj) : T (bytes * mode_obj) :=
  let '(result, self) := s in
  do gamma := t_get_gamma self in
  do block := t_get_block bs data i in
  do cipher_block := t_add_xor gamma block in
  do self := t_set_init_vect (py_slice cipher_block 0 bs) self in
  retT (result ++ cipher_block, self).
Definition t_cfb_decrypt_body (bs : Z) (data : bytes) (i : Z) (s : bytes * mode_obj) : T (bytes * mode_obj) :=
  let '(result, self) := s in
  do gamma := t_get_gamma self in
  do cipher_block := t_get_block bs data i in
  do b := t_add_xor gamma cipher_block in
  do self := t_set_init_vect cipher_block self in
  retT (result ++ b, self).
Definition t_ofb_body (bs : Z) (data : bytes) (i : Z) (s : bytes * mode_obj) : T (bytes * mode_obj) :=
  let '(result, self) := s in
  do gamma := t_get_gamma self in
  do cipher_block := t_get_block bs data i in
  do b := t_add_xor gamma cipher_block in
  do self := t_set_init_vect (py_slice gamma 0 bs) self in
  retT (result ++ b, self).
(** The test of the rest of the data and the last, shorter piece (708-709, 734-735, 780-781). *)
Definition t_rest (line bs : Z) (data : bytes) (s : bytes * mode_obj) : T (bytes * mode_obj) :=
  let '(result, self) := s in
  if_ FModes line (negb (len data mod bs =? 0))
    (do f := t_final_cipher data self in
     retT (result ++ f, self))
    (retT (result, self)).
(** gost_34_13_2015.py 686-710 [GOST34132015cfb.encrypt]. *)
Definition t_cfb_encrypt (data : bytes) (self : mode_obj) : T (bytes * mode_obj) :=
  at_ Enter FModes 686 then
  do data := t_feedback_encrypt data in
  do n := t_get_num_block (block_size self) data in
  do s := t_for FModes 703 (py_range 0 n 1) ([], self) (t_cfb_encrypt_body (block_size self) data) in
  t_rest 708 (block_size self) data s.
(** gost_34_13_2015.py 712-736 [GOST34132015cfb.decrypt]. *)
Definition t_cfb_decrypt (data : bytes) (self : mode_obj) : T (bytes * mode_obj) :=
  at_ Enter FModes 712 then
  do data := t_feedback_decrypt data in
  do n := t_get_num_block (block_size self) data in
  do s := t_for FModes 729 (py_range 0 n 1) ([], self) (t_cfb_decrypt_body (block_size self) data) in
  t_rest 734 (block_size self) data s.
(** gost_34_13_2015.py 758-782 [GOST34132015ofb.encrypt]. *)
Definition t_ofb_encrypt (data : bytes) (self : mode_obj) : T (bytes * mode_obj) :=
  at_ Enter FModes 758 then
  do data := t_feedback_encrypt data in
  do n := t_get_num_block (block_size self) data in
  do s := t_for FModes 775 (py_range 0 n 1) ([], self) (t_ofb_body (block_size self) data) in
  t_rest 780 (block_size self) data s.
(** gost_34_13_2015.py 784-799 [GOST34132015ofb.decrypt]. *)
Definition t_ofb_decrypt (data : bytes) (self : mode_obj) : T (bytes * mode_obj) :=
  at_ Enter FModes 784 then
  do _ := t_feedback_decrypt data in
  t_ofb_encrypt data self.

(** gost_34_13_2015.py 846-847: the body of the loop of [_inc_ctr]; operand 0 is [ctr], operand 1 [bit]. *)
Definition t_inc_ctr_body (bit : bytes) (i : Z) (s : Z * bytes) : T (Z * bytes) :=
  let '(internal, ctr) := s in
  do c := t_get FModes 846 0 ctr i in
  do b := t_get FModes 846 1 bit i in
  let internal := c + b + Z.shiftl internal 8 in
  do ctr := t_res (py_set ctr i (Z.land internal 0xff)) in
  retT (internal, ctr).
(** gost_34_13_2015.py 841-848 [_inc_ctr]. *)
Definition t_inc_ctr (bs : Z) (ctr : bytes) : T bytes :=
  at_ Enter FModes 841 then
  do bit := t_res (py_set (py_repeat 0 bs) (bs - 1) 0x01) in
  do (_, ctr) := t_for FModes 845 (py_range 0 bs 1) (0, ctr) (t_inc_ctr_body bit) in
  retT ctr.
(** gost_34_13_2015.py 873-874, 877-878. *)
Definition t_ctr_step (self : mode_obj) : T (bytes * mode_obj) :=
  do gamma := t_co_encrypt (o_cipher self) (o_counter self) in
  do ctr := t_inc_ctr (block_size self) (o_counter self) in
  retT (gamma, set_counter self ctr).
(** gost_34_13_2015.py 873-875: the body of the loop. *)
Definition t_ctr_body (bs : Z) (data : bytes) (i : Z) (s : bytes * mode_obj) : T (bytes * mode_obj) :=
  let '(result, self) := s in
  do (gamma, self) := t_ctr_step self in
  do block := t_get_block bs data i in
  do b := t_add_xor block gamma in
  retT (result ++ b, self).
(** gost_34_13_2015.py 876-881. *)
Definition t_ctr_rest (bs : Z) (data : bytes) (s : bytes * mode_obj) : T (bytes * mode_obj) :=
  let '(result, self) := s in
  if_ FModes 876 (negb (len data mod bs =? 0))
    (do (gamma, self) := t_ctr_step self in
     do n := t_get_num_block bs data in
     do b := t_add_xor (py_from data (bs * n)) gamma in
     retT (result ++ b, self))
    (retT (result, self)).
(** gost_34_13_2015.py 855-882 [GOST34132015ctr.encrypt]; the base class is GOST34132015Cipher. *)
Definition t_ctr_encrypt (data : bytes) (self : mode_obj) : T (bytes * mode_obj) :=
  at_ Enter FModes 855 then
  do data := t_check_plaintext data in
  do n := t_get_num_block (block_size self) data in
  do s := t_for FModes 872 (py_range 0 n 1) ([], self) (t_ctr_body (block_size self) data) in
  t_ctr_rest (block_size self) data s.
(** gost_34_13_2015.py 884-899 [GOST34132015ctr.decrypt]. *)
Definition t_ctr_decrypt (data : bytes) (self : mode_obj) : T (bytes * mode_obj) :=
  at_ Enter FModes 884 then
  do data := t_check_ciphertext data in
  t_ctr_encrypt data self.

(** Dynamic dispatch of the two methods on the class of the object. *)
Definition t_mode_encrypt (data : bytes) (self : mode_obj) : T (bytes * mode_obj) :=
  match o_class self with
  | ECB => t_ecb_encrypt data self
  | CBC => t_cbc_encrypt data self
  | CFB => t_cfb_encrypt data self
  | OFB => t_ofb_encrypt data self
  | CTR => t_ctr_encrypt data self
  end.
Definition t_mode_decrypt (data : bytes) (self : mode_obj) : T (bytes * mode_obj) :=
  match o_class self with
  | ECB => t_ecb_decrypt data self
  | CBC => t_cbc_decrypt data self
  | CFB => t_cfb_decrypt data self
  | OFB => t_ofb_decrypt data self
  | CTR => t_ctr_decrypt data self
  end.
