(** * Model of GOST34122015Magma (gostcrypto/gostcipher/gost_34_12_2015.py) *)
From Verif Require Import PyBase Utils CipherTables.

(** gost_34_12_2015.py 27. *)
Definition _BLOCK_SIZE_MAGMA : Z := 8.

(** gost_34_12_2015.py 623-631 [_expand_iter_key]: the keys appended. *)
Definition _expand_iter_key (keys : list bytes) (key : bytes) : res (list bytes) :=
  for_ (py_range 0 8 1) keys
    (fun j keys =>
       let* iter_key :=
         for_ (py_range 0 4 1) (py_repeat 0 4)
           (fun i iter_key =>
              let* k := py_get key (j * 4 + i) in
              py_set iter_key i k) in
       Ok (keys ++ [iter_key])).

(** gost_34_12_2015.py 633-640 [_expand_iter_key_final]. *)
Definition _expand_iter_key_final (keys : list bytes) (key : bytes) : res (list bytes) :=
  for_ (py_range 0 8 1) keys
    (fun j keys =>
       let* iter_key :=
         for_ (py_range 0 4 1) (py_repeat 0 4)
           (fun i iter_key =>
              let* k := py_get key (28 - j * 4 + i) in
              py_set iter_key i k) in
       Ok (keys ++ [iter_key])).

(** gost_34_12_2015.py 599-612 [__init__]: the object is the list [_cipher_iter_key]. *)
Definition magma_new (key : bytes) : res (list bytes) :=
  let* keys := _expand_iter_key [] key in
  let* keys := _expand_iter_key keys key in
  let* keys := _expand_iter_key keys key in
  _expand_iter_key_final keys key.

(** gost_34_12_2015.py 642-652 [_cipher_t]. *)
Definition _cipher_t (data : bytes) : res bytes :=
  for_ (py_range 0 4 1) (py_repeat 0 4)
    (fun i result =>
       let* d := py_get data i in
       let first_part_byte := Z.land d 0x0f in
       let sec_part_byte := Z.shiftr (Z.land d 0xf0) 4 in
       let* row1 := py_get _S_BOX_MAGMA ((3 - i) * 2) in
       let* first_part_byte := py_get row1 first_part_byte in
       let* row2 := py_get _S_BOX_MAGMA ((3 - i) * 2 + 1) in
       let* sec_part_byte := py_get row2 sec_part_byte in
       py_set result i (Z.lor (Z.shiftl sec_part_byte 4) first_part_byte)).

(** gost_34_12_2015.py 654-663 [_cipher_add_32]. *)
Definition _cipher_add_32 (op_a op_b : bytes) : res bytes :=
  let* (_, result) :=
    for_ (py_range 3 (-1) (-1)) (0, py_repeat 0 4)
      (fun i '(internal, result) =>
         let* a := py_get op_a i in
         let* b := py_get op_b i in
         let internal := a + b + Z.shiftr internal 8 in
         let* result := py_set result i (Z.land internal 0xff) in
         Ok (internal, result)) in
  Ok result.

(** gost_34_12_2015.py 665-681 [_cipher_g]; [pack('>I', v)] is the big-endian form of a
    value that is below 2^32 by the preceding mask. *)
Definition _cipher_g (cipher_k cipher_a : bytes) : res bytes :=
  let* internal := _cipher_add_32 cipher_k cipher_a in
  let* internal := _cipher_t internal in
  let* i0 := py_get internal 0 in
  let* i1 := py_get internal 1 in
  let* i2 := py_get internal 2 in
  let* i3 := py_get internal 3 in
  let result_32 := i0 in
  let result_32 := Z.shiftl result_32 8 + i1 in
  let result_32 := Z.shiftl result_32 8 + i2 in
  let result_32 := Z.shiftl result_32 8 + i3 in
  let result_32 := Z.lor (Z.shiftl result_32 11) (Z.shiftr result_32 21) in
  let result_32 := Z.land result_32 0xffffffff in
  Ok (int_to_bytearray result_32 4).

(** gost_34_12_2015.py 683-688 [_cipher_g_iter_result]. *)
Definition _cipher_g_iter_result (a_0 a_1 : bytes) : bytes :=
  let result := py_repeat 0 _BLOCK_SIZE_MAGMA in
  let result := py_slice_set result 0 4 a_1 in
  py_slice_set result 4 _BLOCK_SIZE_MAGMA a_0.

(** gost_34_12_2015.py 690-701 [_cipher_g_iter]. *)
Definition _cipher_g_iter (cipher_k cipher_a : bytes) : res (bytes * bytes * bytes) :=
  let a_1 := py_slice cipher_a 0 4 in
  let a_0 := py_slice cipher_a 4 _BLOCK_SIZE_MAGMA in
  let* cipher_g := _cipher_g cipher_k a_0 in
  Ok (a_0, a_1, add_xor a_1 cipher_g).

(** gost_34_12_2015.py 703-708 [_cipher_g_prev]. *)
Definition _cipher_g_prev (cipher_k cipher_a : bytes) : res bytes :=
  let* (a_0, _, cipher_g) := _cipher_g_iter cipher_k cipher_a in
  Ok (_cipher_g_iter_result cipher_g a_0).

(** gost_34_12_2015.py 710-714 [_cipher_g_fin]. *)
Definition _cipher_g_fin (cipher_k cipher_a : bytes) : res bytes :=
  let* (a_0, _, cipher_g) := _cipher_g_iter cipher_k cipher_a in
  Ok (_cipher_g_iter_result a_0 cipher_g).

(** gost_34_12_2015.py 736-758 [decrypt]. *)
Definition magma_decrypt (keys : list bytes) (block : bytes) : res bytes :=
  let* k := py_get keys 31 in
  let* result := _cipher_g_prev k block in
  let* result :=
    for_ (py_range 30 0 (-1)) result
      (fun i result => let* k := py_get keys i in _cipher_g_prev k result) in
  let* k := py_get keys 0 in
  _cipher_g_fin k result.

(** gost_34_12_2015.py 760-782 [encrypt]. *)
Definition magma_encrypt (keys : list bytes) (block : bytes) : res bytes :=
  let* k := py_get keys 0 in
  let* result := _cipher_g_prev k block in
  let* result :=
    for_ (py_range 1 31 1) result
      (fun i result => let* k := py_get keys i in _cipher_g_prev k result) in
  let* k := py_get keys 31 in
  _cipher_g_fin k result.

(** gost_34_12_2015.py 784-787 [clear]. *)
Definition magma_clear (keys : list bytes) : res (list bytes) :=
  for_ (py_range 0 32 1) keys
    (fun i keys =>
       let* k := py_get keys i in
       py_set_list keys i (zero_fill k)).
