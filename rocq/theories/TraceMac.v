(** * The steps of the MAC mode.

    The constructor [__init__] and the methods [update], [mac_final] and [digest] of gostcipher/gost_34_13_2015.py for byte
    strings, with the steps they go through, as in TraceModes.v.  Reading the property [block_size], slicing,
    [bytearray_to_int] (utils.py 85-95, a call of [int.from_bytes]), [deepcopy] (line 1046) and the object
    identifiers (lines 238 and 606) are not steps. *)
From Verif Require Import PyBase PyState PyLoop Utils CipherObj Modes Mac SpecModes SpecTrace Trace TraceCipher TraceCipher2 TraceModes.
Open Scope string_scope.
Open Scope list_scope.
Open Scope Z_scope.

(** utils.py 37-45 [msb]. *)
Definition t_msb (value : bytes) : T Z :=
  at_ Enter FUtils 37 then do v := t_get FUtils 45 0 value 0 in retT (Z.land v 0x80).
(** utils.py 17-34 [check_value] of a byte string. *)
Definition t_check_value (value : bytes) (size_value : Z) : T bool :=
  at_ Enter FUtils 17 then if_ FUtils 32 (negb (len value =? size_value)) (retT false) (retT true).

(** gost_34_13_2015.py 212-238 [GOST34132015.__init__] for one of the two algorithms and a byte string. *)
Definition t_base_init (a : balg) (key : bytes) : T cipher_obj :=
  at_ Enter FModes 212 then
  at_ Test FModes 228 false then
  do ok := t_check_value key 32 in
  if_ FModes 231 (negb ok) (do _ := t_zero_fill key in stopT (Raises (GOSTCipherError "GOSTCipherError: invalid key value")))
    (if_ FModes 234 (match a with Kuz => true | Mag => false end) (do keys := t_kuz_new key in retT (KuzObj keys))
       (at_ Test FModes 236 true then do keys := t_magma_new key in retT (MagmaObj keys))).

(** gost_34_13_2015.py 942-947 [_set_pad_mode_3]. *)
Definition t_set_pad_mode_3 (bs : Z) (data : bytes) : T bytes :=
  at_ Enter FModes 942 then
  do p := t_get_pad_size bs data in
  if_ FModes 943 (p =? 0) (retT data)
    (do p := t_get_pad_size bs data in retT (data ++ [0x80] ++ py_repeat 0x00 (p - 1))).

(** gost_34_13_2015.py 955-960 and 961-966. *)
Definition t_mac_double (line bs : Z) (value_b value : bytes) : T bytes :=
  do m := t_msb value in
  if_ FModes line (m =? 0) (t_int_to_bytearray (Z.shiftl (bytearray_to_int value) 1) bs)
    (do k := t_int_to_bytearray (Z.shiftl (bytearray_to_int value) 1) bs in t_add_xor k value_b).
(** gost_34_13_2015.py 949-967 [_get_mac_key]. *)
Definition t_get_mac_key (bs : Z) (value_r : bytes) : T (bytes * bytes) :=
  at_ Enter FModes 949 then
  do value_b := if_ FModes 951 (bs =? 16) (retT _B_128) (if_ FModes 953 (bs =? 8) (retT _B_64) (retT [])) in
  do key_1 := t_mac_double 955 bs value_b value_r in
  do key_2 := t_mac_double 961 bs value_b key_1 in
  retT (key_1, key_2).

(** gost_34_13_2015.py 989-991: one round of the loop. *)
Definition t_mac_round (self : mac_obj) (data : bytes) (i : Z) (prev_block : bytes) : T bytes :=
  do b := t_get_block (mac_block_size self) data i in
  do x := t_add_xor prev_block b in
  t_co_encrypt (m_cipher self) x.
(** gost_34_13_2015.py 992-1012: the rest of [update]. *)
Definition t_mac_last (self : mac_obj) (data prev_block : bytes) : T mac_obj :=
  let bs := mac_block_size self in
  do p := t_get_pad_size bs data in
  do s := if_ FModes 992 (p =? 0)
    (do x := t_add_xor prev_block (py_slice data (len data - bs) (len data)) in
     do block := t_co_encrypt (m_cipher self) x in
     retT (block, prev_block, []))
    (do p := t_get_pad_size bs data in
     do p' := t_get_pad_size bs data in
     do x := t_add_xor prev_block (py_slice data (len data - 2 * bs + p) (len data - bs + p')) in
     do block := t_co_encrypt (m_cipher self) x in
     do p := t_get_pad_size bs data in
     retT (block, block, py_from data (len data - bs + p))) in
  let '(cur, prev, iter) := s in
  do n := t_get_num_block bs data in
  retT {| m_cipher := m_cipher self; m_key_1 := m_key_1 self; m_key_2 := m_key_2 self;
          m_fin_buff := py_from data (bs * (n - 1)); m_iter_buf := iter; m_prev_mac := prev; m_cur_mac := cur |}.
(** gost_34_13_2015.py 969-1012 [update]. *)
Definition t_mac_update (data : bytes) (self : mac_obj) : T mac_obj :=
  at_ Enter FModes 969 then
  at_ Test FModes 983 false then
  let data := m_iter_buf self ++ data in
  do n := t_get_num_block (mac_block_size self) data in
  do prev_block := t_for FModes 989 (py_range 0 (n - 1) 1) (m_cur_mac self) (t_mac_round self data) in
  t_mac_last self data prev_block.

(** gost_34_13_2015.py 1014-1025 [mac_final]; what it leaves in [_fin_buff] is not followed, as [digest] works on a copy. *)
Definition t_mac_final (self : mac_obj) : T bytes :=
  let bs := mac_block_size self in
  at_ Enter FModes 1014 then
  do p := t_get_pad_size bs (m_fin_buff self) in
  do s := if_ FModes 1016 (p =? 0) (retT (m_key_1 self, m_fin_buff self))
    (do b := t_set_pad_mode_3 bs (py_from (m_fin_buff self) bs) in retT (m_key_2 self, b)) in
  let '(final_key, fin_buff) := s in
  do x := t_add_xor fin_buff (m_prev_mac self) in
  do x := t_add_xor x final_key in
  t_co_encrypt (m_cipher self) x.
(** gost_34_13_2015.py 1027-1050 [digest] for a size of at most a block. *)
Definition t_mac_digest (mac_size : Z) (self : mac_obj) : T bytes :=
  at_ Enter FModes 1027 then
  at_ Test FModes 1047 false then
  do r := t_mac_final self in
  retT (py_slice r 0 mac_size).

(** gost_34_13_2015.py 923-940 [GOST34132015mac.__init__]. *)
Definition t_mac_init (a : balg) (key data : bytes) : T mac_obj :=
  at_ Enter FModes 923 then
  do c := t_base_init a key in
  do value_r := t_co_encrypt c (py_repeat 0 (co_block_size c)) in
  do keys := t_get_mac_key (co_block_size c) value_r in
  let '(key_1, key_2) := keys in
  let self := {| m_cipher := c; m_key_1 := key_1; m_key_2 := key_2; m_fin_buff := []; m_iter_buf := [];
                 m_prev_mac := py_repeat 0 (co_block_size c); m_cur_mac := py_repeat 0 (co_block_size c) |} in
  if_ FModes 939 (negb (len data =? 0)) (t_mac_update data self) (retT self).
