(** * The steps of hashing.

    The methods of gosthash/gost_34_11_2012.py and gosthmac/r_50_1_113_2016.py with the steps they go
    through, as in Trace.v and TraceCipher.v.  The operand of a [Read] is 0 (or 4, the second byte string of
    a line) for the data, 1 for a look-up in a table with an index taken from the data, 2 for the choice of
    a row of the table of tables and 3 for the list of constants.  Left out: the steps of [deepcopy] and of
    [ObjectIdentifier], whose argument is a constant. *)
From Verif Require Import PyBase PyState PyLoop Utils StreebogTables Streebog Hmac SpecTrace Trace TraceCipher.
Open Scope string_scope.
Open Scope list_scope.
Open Scope Z_scope.

Definition t_at {A} (line operand : Z) (l : list A) (i : Z) : T A :=
  at_ Read FHash line operand i then stopT (liftO (py_get l i)).

(** gost_34_11_2012.py 768-777 [_hash_add_512]. *)
Definition t_hash_add_512 (op_a op_b : bytes) : T bytes :=
  at_ Enter FHash 769 then
  do (_, result) :=
    t_for FHash 774 (py_range 0 _BLOCK_SIZE 1) (0, py_repeat 0 _BLOCK_SIZE)
      (fun i '(op_c, result) =>
         do a := t_at 775 0 op_a i in
         do b := t_at 775 4 op_b i in
         let op_c := a + b + Z.shiftr op_c 8 in
         do result := t_res (py_set result i (Z.land op_c 0xff)) in
         retT (op_c, result)) in
  retT result.

(** [_T[j][data[k]]]. *)
Definition t_look (line : Z) (data : bytes) (j k : Z) : T Z :=
  do row := t_at line 2 _T j in
  do d := t_at line 0 data k in
  t_at line 1 row d.
(** The value of one assignment of [_hash_lps]; the look-ups are spread over three lines. *)
Definition t_lps_word (line : Z) (data : bytes) (k0 k1 k2 k3 k4 k5 k6 k7 : Z) : T bytes :=
  do t0 := t_look line data 0 k0 in
  do t1 := t_look line data 1 k1 in
  do t2 := t_look line data 2 k2 in
  do t3 := t_look (line + 1) data 3 k3 in
  do t4 := t_look (line + 1) data 4 k4 in
  do t5 := t_look (line + 1) data 5 k5 in
  do t6 := t_look (line + 2) data 6 k6 in
  do t7 := t_look (line + 2) data 7 k7 in
  t_res (to_bytes_8_little
    (Z.lxor (Z.lxor (Z.lxor (Z.lxor (Z.lxor (Z.lxor (Z.lxor t0 t1) t2) t3) t4) t5) t6) t7)).
(** gost_34_11_2012.py 779-814 [_hash_lps]. *)
Definition t_hash_lps (data : bytes) : T bytes :=
  at_ Enter FHash 780 then
  let internal := py_repeat 0 _BLOCK_SIZE in
  do w := t_lps_word 783 data 0 8 16 24 32 40 48 56 in
  let internal := set_from internal 0 w in
  do w := t_lps_word 787 data 1 9 17 25 33 41 49 57 in
  let internal := set_from internal 8 w in
  do w := t_lps_word 791 data 2 10 18 26 34 42 50 58 in
  let internal := set_from internal 16 w in
  do w := t_lps_word 795 data 3 11 19 27 35 43 51 59 in
  let internal := set_from internal 24 w in
  do w := t_lps_word 799 data 4 12 20 28 36 44 52 60 in
  let internal := set_from internal 32 w in
  do w := t_lps_word 803 data 5 13 21 29 37 45 53 61 in
  let internal := set_from internal 40 w in
  do w := t_lps_word 807 data 6 14 22 30 38 46 54 62 in
  let internal := set_from internal 48 w in
  do w := t_lps_word 811 data 7 15 23 31 39 47 55 63 in
  let internal := set_from internal 56 w in
  retT internal.
(** gost_34_11_2012.py 816-820 [_hash_get_key]. *)
Definition t_hash_get_key (k : bytes) (i : Z) : T bytes :=
  at_ Enter FHash 816 then
  do c := t_at 818 3 _C i in
  do key := t_add_xor k c in
  t_hash_lps key.
(** gost_34_11_2012.py 822-828 [_hash_e]. *)
Definition t_e_body (i : Z) (s : bytes * bytes) : T (bytes * bytes) :=
  let '(k, internal) := s in
  do internal := t_hash_lps internal in
  do k := t_hash_get_key k i in
  do internal := t_add_xor internal k in
  retT (k, internal).
Definition t_hash_e (k data : bytes) : T bytes :=
  at_ Enter FHash 822 then
  do internal := t_add_xor k data in
  do (_, internal) := t_for FHash 824 (py_range 0 12 1) (k, internal) t_e_body in
  retT internal.
(** gost_34_11_2012.py 830-837 [_hash_g]. *)
Definition t_hash_g (hash_h hash_n data : bytes) : T bytes :=
  at_ Enter FHash 830 then
  do k := t_add_xor hash_n hash_h in
  do k := t_hash_lps k in
  do internal := t_hash_e k data in
  do internal := t_add_xor internal hash_h in
  t_add_xor internal data.

(** gost_34_11_2012.py 839-864 [update] for a byte string. *)
Definition t_step_h (self : hash_obj) (n block : bytes) : T hash_obj :=
  do v := t_hash_g (h_hash_h self) n block in retT (set_h self v).
Definition t_step_n (self : hash_obj) (v : bytes) : T hash_obj :=
  do v := t_hash_add_512 (h_hash_n self) v in retT (set_n self v).
Definition t_step_sigma (self : hash_obj) (v : bytes) : T hash_obj :=
  do v := t_hash_add_512 (h_hash_sigma self) v in retT (set_sigma self v).
Definition t_update_body (data : bytes) (i : Z) (self : hash_obj) : T hash_obj :=
  let block := py_slice data i (i + _BLOCK_SIZE) in
  do self := t_step_h self (h_hash_n self) block in
  do self := t_step_n self _V_512 in
  t_step_sigma self block.
Definition t_hash_update (data : bytes) (self : hash_obj) : T hash_obj :=
  at_ Enter FHash 839 then
  at_ Test FHash 853 false then
  let data := h_buff self ++ data in
  let num_block := len data / _BLOCK_SIZE in
  do self := t_for FHash 857 (py_range 0 (num_block * _BLOCK_SIZE) _BLOCK_SIZE) (set_num_block self num_block) (t_update_body data) in
  let pad_block_size := _BLOCK_SIZE - len data mod _BLOCK_SIZE in
  let self := set_pad_block_size self pad_block_size in
  if_ FHash 863 (pad_block_size <? _BLOCK_SIZE)
    (retT (set_buff self (py_from data (- (_BLOCK_SIZE - pad_block_size)))))
    (retT self).
(** gost_34_11_2012.py 876-880, the end of [hash_final]. *)
Definition t_final_steps (internal : bytes) (self : hash_obj) : T hash_obj :=
  let buff := h_buff self in
  do self := t_step_h self (h_hash_n self) buff in
  do self := t_step_n self internal in
  do self := t_step_sigma self buff in
  do self := t_step_h self _V_0 (h_hash_n self) in
  t_step_h self _V_0 (h_hash_sigma self).
(** gost_34_11_2012.py 866-880 [hash_final]. *)
Definition t_hash_final (self : hash_obj) : T hash_obj :=
  at_ Enter FHash 866 then
  let pad_block_size := _BLOCK_SIZE - len (h_buff self) in
  let self := set_pad_block_size self pad_block_size in
  let internal := py_repeat 0 _BLOCK_SIZE in
  do internal := t_res (py_set internal 1 (Z.land (Z.shiftr ((_BLOCK_SIZE - pad_block_size) * 8) 8) 0xff)) in
  do internal := t_res (py_set internal 0 (Z.land ((_BLOCK_SIZE - pad_block_size) * 8) 0xff)) in
  do self := if_ FHash 872 (pad_block_size <=? _BLOCK_SIZE)
    (retT (set_buff self ((h_buff self ++ [0x01]) ++ py_repeat 0x00 (pad_block_size - 1))))
    (retT self) in
  t_final_steps internal self.
(** gost_34_11_2012.py 886-896 [digest], with [copy] (913), [get_hash] (882) and [digest_size] (923-934). *)
Definition t_hash_digest (self : hash_obj) : T bytes :=
  at_ Enter FHash 886 then
  at_ Enter FHash 913 then
  do temp := t_hash_final self in
  at_ Enter FHash 882 then
  at_ Enter FHash 923 then
  at_ Test FHash 930 (String.eqb (h_name temp) "streebog512") then
  retT (get_hash temp).
(** gost_34_11_2012.py 732-754 [__init__] with [_hash_init] (757-766), for a byte string. *)
Definition t_hash_init (name : string) (data : bytes) : T hash_obj :=
  at_ Enter FHash 732 then
  at_ Enter FHash 757 then
  at_ Test FHash 765 (String.eqb name "streebog256") then
  at_ Test FHash 749 (String.eqb name "streebog256") then
  let oid := if String.eqb name "streebog256" then "1.2.643.7.1.1.2.2" else "1.2.643.7.1.1.2.3" in
  let self := _hash_init name oid in
  if_ FHash 753 (match data with [] => false | _ => true end) (t_hash_update data self) (retT self).
(** gost_34_11_2012.py 673-700 [new] for a text and a byte string. *)
Definition t_hash_new (name : string) (data : bytes) : T hash_obj :=
  at_ Enter FHash 673 then
  if_ FHash 697 (negb (String.eqb name "streebog512" || String.eqb name "streebog256"))
    (stopT (Raises (GOSTHashError "GOSTHashError: unsupported hash type")))
    (t_hash_init name data).
(** Updates one after the other, and the digest. *)
Fixpoint t_hash_updates (cs : list bytes) (self : hash_obj) : T hash_obj :=
  match cs with
  | [] => retT self
  | c :: cs' => do self := t_hash_update c self in t_hash_updates cs' self
  end.
Definition t_hash_session (name : string) (cs : list bytes) : T bytes :=
  do self := t_hash_new name [] in
  do self := t_hash_updates cs self in
  t_hash_digest self.

(** r_50_1_113_2016.py 147-167 [update] for a byte string. *)
Definition t_hmac_update (data : bytes) (self : hmac_obj) : T hmac_obj :=
  at_ Enter FHmac 147 then
  at_ Test FHmac 161 false then
  let self := hm_set_counter self (hm_counter self + 1) in
  if_ FHmac 164 (hm_counter self =? 1)
    (do x := t_add_xor (hm_key self) _I_PAD in
     do h := t_hash_update (x ++ data) (hm_hasher self) in
     retT (hm_set_hasher self h))
    (at_ Test FHmac 166 true then
     do h := t_hash_update data (hm_hasher self) in
     retT (hm_set_hasher self h)).
(** r_50_1_113_2016.py 169-182 [digest]; the attribute [name] of the hash object is gost_34_11_2012.py 947, its [reset] 909. *)
Definition t_hmac_digest (self : hmac_obj) : T bytes :=
  at_ Enter FHmac 169 then
  at_ Enter FHash 947 then
  do fin_hasher_obj := t_hash_init (h_name (hm_hasher self)) [] in
  do x := t_add_xor (hm_key self) _O_PAD in
  do inner := t_hash_digest (hm_hasher self) in
  do fin_hasher_obj := t_hash_update (x ++ inner) fin_hasher_obj in
  do result := t_hash_digest fin_hasher_obj in
  at_ Enter FHash 909 then
  at_ Enter FHash 757 then
  at_ Test FHash 765 (String.eqb (h_name fin_hasher_obj) "streebog256") then
  retT result.
(** r_50_1_113_2016.py 106-135 [__init__] and 49-76 [new] for a text and byte strings. *)
Definition t_hmac_new (name : string) (key data : bytes) : T hmac_obj :=
  at_ Enter FHmac 49 then
  at_ Enter FHmac 106 then
  let is256 := String.eqb name "HMAC_GOSTR3411_2012_256" in
  let is512 := String.eqb name "HMAC_GOSTR3411_2012_512" in
  if_ FHmac 116 (negb (is256 || is512)) (stopT (Raises (GOSTHMACError "GOSTHMACError: unsupported mode")))
  (if_ FHmac 118 (len key >? _KEY_SIZE) (stopT (Raises (GOSTHMACError "GOSTHMACError: invalid key value")))
  (do _ := if_ FHmac 120 (len key <? _KEY_SIZE) (retT tt) (step (Test FHmac 124 true)) in
   do (oid, hasher) := if_ FHmac 127 is256
     (do h := t_hash_init "streebog256" [] in retT ("1.2.643.7.1.1.4.1", h))
     (at_ Test FHmac 130 true then do h := t_hash_init "streebog512" [] in retT ("1.2.643.7.1.1.4.2", h)) in
   let self := {| hm_key := store_key key; hm_hasher := hasher; hm_counter := 0; hm_oid := oid |} in
   if_ FHmac 134 (match data with [] => false | _ => true end) (t_hmac_update data self) (retT self))).
Definition t_hmac_session (name : string) (key data : bytes) : T bytes :=
  do self := t_hmac_new name key data in t_hmac_digest self.
