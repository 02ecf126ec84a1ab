(** * Model of GOST34122015Kuznechik (gostcrypto/gostcipher/gost_34_12_2015.py) *)
From Verif Require Import PyBase Utils CipherTables.

(** gost_34_12_2015.py 26-28. *)
Definition _BLOCK_SIZE_KUZNECHIK : Z := 16.
Definition _KEY_SIZE : Z := 32.

(** gost_34_12_2015.py 456-461 [_cipher_s] and 463-468 [_cipher_s_reverse]. *)
Definition cipher_s_with (sbox : list Z) (data : bytes) : res bytes :=
  for_ (py_range 0 _BLOCK_SIZE_KUZNECHIK 1) (py_repeat 0 _BLOCK_SIZE_KUZNECHIK)
    (fun i result =>
       let* d := py_get data i in
       let* v := py_get sbox d in
       py_set result i v).
Definition _cipher_s : bytes -> res bytes := cipher_s_with _S_BOX_KUZNECHIK.
Definition _cipher_s_reverse : bytes -> res bytes := cipher_s_with _S_BOX_REVERSE_KUZNECHIK.

(** gost_34_12_2015.py 470-478 [_cipher_r]; [data[i - 1]] is the last byte for [i = 0]. *)
Definition _cipher_r (data : bytes) : res bytes :=
  let* (a_0, result) :=
    for_ (py_range 0 _BLOCK_SIZE_KUZNECHIK 1) (0, py_repeat 0 _BLOCK_SIZE_KUZNECHIK)
      (fun i '(a_0, result) =>
         let* d := py_get data (i - 1) in
         let* result' := py_set result i d in
         let* row := py_get _GF i in
         let* ri := py_get result' i in
         let* g := py_get row ri in
         Ok (Z.lxor a_0 g, result')) in
  py_set result 0 a_0.

(** gost_34_12_2015.py 480-488 [_cipher_r_reverse]; for [i = 0] the assignment is to
    [result[-1]]. *)
Definition _cipher_r_reverse (data : bytes) : res bytes :=
  let* (a_15, result) :=
    for_ (py_range (_BLOCK_SIZE_KUZNECHIK - 1) (-1) (-1)) (0, py_repeat 0 _BLOCK_SIZE_KUZNECHIK)
      (fun i '(a_15, result) =>
         let* d := py_get data i in
         let* result' := py_set result (i - 1) d in
         let* row := py_get _GF i in
         let* g := py_get row d in
         Ok (Z.lxor a_15 g, result')) in
  py_set result 15 a_15.

(** gost_34_12_2015.py 490-496 [_cipher_l]. *)
Definition _cipher_l (data : bytes) : res bytes :=
  for_ (py_range 0 16 1) data (fun _ result => _cipher_r result).

(** gost_34_12_2015.py 498-504 [_cipher_l_reverse]. *)
Definition _cipher_l_reverse (data : bytes) : res bytes :=
  for_ (py_range 0 16 1) data (fun _ result => _cipher_r_reverse result).

(** gost_34_12_2015.py 506-510 [_cipher_get_c]: the constants appended to [_cipher_c]. *)
Definition _cipher_get_c : res (list bytes) :=
  for_ (py_range 1 33 1) []
    (fun i cipher_c =>
       let* internal := py_set (py_repeat 0 _BLOCK_SIZE_KUZNECHIK) 15 i in
       let* c := _cipher_l internal in
       Ok (cipher_c ++ [c])).

(** gost_34_12_2015.py 419-445 [__init__]: the object is the list [_cipher_iter_key].  The
    overwriting of local variables at the end has no effect outside the call. *)
Definition kuz_new (key : bytes) : res (list bytes) :=
  let* cipher_c := _cipher_get_c in
  let key_1 := py_upto key (_KEY_SIZE / 2) in
  let key_2 := py_from key (_KEY_SIZE / 2) in
  let* (keys, _, _) :=
    for_ (py_range 0 4 1) ([key_1; key_2], key_1, key_2)
      (fun i '(keys, key_1, key_2) =>
         let* (key_1, key_2) :=
           for_ (py_range 0 8 1) (key_1, key_2)
             (fun j '(key_1, key_2) =>
                let* c := py_get cipher_c (i * 8 + j) in
                let* internal := _cipher_s (add_xor key_1 c) in
                let* internal := _cipher_l internal in
                Ok (add_xor internal key_2, key_1)) in
         Ok (keys ++ [key_1] ++ [key_2], key_1, key_2)) in
  Ok keys.

(** gost_34_12_2015.py 532-549 [decrypt]. *)
Definition kuz_decrypt (keys : list bytes) (block : bytes) : res bytes :=
  let* k9 := py_get keys 9 in
  for_ (py_range 8 (-1) (-1)) (add_xor k9 block)
    (fun i block =>
       let* block := _cipher_l_reverse block in
       let* block := _cipher_s_reverse block in
       let* k := py_get keys i in
       Ok (add_xor k block)).

(** gost_34_12_2015.py 551-568 [encrypt]. *)
Definition kuz_encrypt (keys : list bytes) (block : bytes) : res bytes :=
  let* block :=
    for_ (py_range 0 9 1) block
      (fun i block =>
         let* k := py_get keys i in
         let* block := _cipher_s (add_xor k block) in
         _cipher_l block) in
  let* k9 := py_get keys 9 in
  Ok (add_xor k9 block).

(** gost_34_12_2015.py 570-573 [clear]: the keys after the call. *)
Definition kuz_clear (keys : list bytes) : res (list bytes) :=
  for_ (py_range 0 10 1) keys
    (fun i keys =>
       let* k := py_get keys i in
       py_set_list keys i (zero_fill k)).
