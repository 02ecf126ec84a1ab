(** * The steps of the block ciphers: making an object, and [decrypt].

    The rest of gostcipher/gost_34_12_2015.py, in the way of TraceCipher.v.  The operand of a [Read] is 0 for the
    data or the key, 1 for a look-up in a table with an index taken from the data, 2 for the choice of a row of a
    table of tables and 3 for a list of round keys or constants. *)
From Verif Require Import PyBase PyLoop Utils CipherTables Kuznechik Magma SpecTrace Trace TraceCipher.
Open Scope list_scope.
Open Scope Z_scope.

(** gost_34_12_2015.py 463-468 [_cipher_s_reverse]. *)
Definition t_cipher_s_reverse (data : bytes) : T bytes :=
  at_ Enter FCipher 464 then
  t_for FCipher 466 (py_range 0 _BLOCK_SIZE_KUZNECHIK 1) (py_repeat 0 _BLOCK_SIZE_KUZNECHIK)
    (fun i result =>
       do d := t_read 467 0 data i in
       do v := t_read 467 1 _S_BOX_REVERSE_KUZNECHIK d in
       t_res (py_set result i v)).
(** gost_34_12_2015.py 480-488 [_cipher_r_reverse]. *)
Definition t_cipher_r_reverse (data : bytes) : T bytes :=
  at_ Enter FCipher 481 then
  do (a_15, result) :=
    t_for FCipher 484 (py_range (_BLOCK_SIZE_KUZNECHIK - 1) (-1) (-1)) (0, py_repeat 0 _BLOCK_SIZE_KUZNECHIK)
      (fun i '(a_15, result) =>
         do d := t_read 485 0 data i in
         do result' := t_res (py_set result (i - 1) d) in
         do row := t_read 486 2 _GF i in
         do d := t_read 486 0 data i in
         do g := t_read 486 1 row d in
         retT (Z.lxor a_15 g, result')) in
  t_res (py_set result 15 a_15).
(** gost_34_12_2015.py 498-504 [_cipher_l_reverse]. *)
Definition t_cipher_l_reverse (data : bytes) : T bytes :=
  at_ Enter FCipher 499 then
  t_for FCipher 502 (py_range 0 16 1) data (fun _ result => t_cipher_r_reverse result).
(** gost_34_12_2015.py 506-510 [_cipher_get_c]. *)
Definition t_cipher_get_c : T (list bytes) :=
  at_ Enter FCipher 506 then
  t_for FCipher 507 (py_range 1 33 1) []
    (fun i cipher_c =>
       do internal := t_res (py_set (py_repeat 0 _BLOCK_SIZE_KUZNECHIK) 15 i) in
       do c := t_cipher_l internal in
       retT (cipher_c ++ [c])).
(** gost_34_12_2015.py 419-445 [__init__], without the object identifier in line 429. *)
Definition t_kuz_new (key : bytes) : T (list bytes) :=
  at_ Enter FCipher 419 then
  do cipher_c := t_cipher_get_c in
  let key_1 := py_upto key (_KEY_SIZE / 2) in
  let key_2 := py_from key (_KEY_SIZE / 2) in
  do (keys, _, _) :=
    t_for FCipher 435 (py_range 0 4 1) ([key_1; key_2], key_1, key_2)
      (fun i '(keys, key_1, key_2) =>
         do (key_1, key_2) :=
           t_for FCipher 436 (py_range 0 8 1) (key_1, key_2)
             (fun j '(key_1, key_2) =>
                do c := t_read 437 3 cipher_c (i * 8 + j) in
                do internal := t_add_xor key_1 c in
                do internal := t_cipher_s internal in
                do internal := t_cipher_l internal in
                do sum := t_add_xor internal key_2 in
                retT (sum, key_1)) in
         retT (keys ++ [key_1] ++ [key_2], key_1, key_2)) in
  retT keys.
(** gost_34_12_2015.py 532-549 [decrypt]. *)
Definition t_kuz_decrypt (keys : list bytes) (block : bytes) : T bytes :=
  at_ Enter FCipher 532 then
  do k9 := t_read 544 3 keys 9 in
  do block := t_add_xor k9 block in
  t_for FCipher 545 (py_range 8 (-1) (-1)) block
    (fun i block =>
       do block := t_cipher_l_reverse block in
       do block := t_cipher_s_reverse block in
       do k := t_read 548 3 keys i in
       t_add_xor k block).

(** utils.py 68-82 [zero_fill] of a byte string. *)
Definition t_zero_fill (value : bytes) : T bytes :=
  at_ Enter FUtils 68 then
  if_ FUtils 79 true (retT (zero_fill value)) (retT []).
(** gost_34_12_2015.py 623-631 [_expand_iter_key] and 633-640 [_expand_iter_key_final]: [enter], [outer], [inner] and
    [line] are the lines of the function, of its loops and of the assignment, [pos] is the index; the results of the two
    calls of [zero_fill] are not used. *)
Definition t_expand (enter outer inner line : Z) (pos : Z -> Z -> Z) (keys : list bytes) (key : bytes) : T (list bytes) :=
  at_ Enter FCipher enter then
  do (keys, iter_key) :=
    t_for FCipher outer (py_range 0 8 1) (keys, [])
      (fun j '(keys, _) =>
         do iter_key :=
           t_for FCipher inner (py_range 0 4 1) (py_repeat 0 4)
             (fun i iter_key =>
                do k := t_read line 0 key (pos j i) in
                t_res (py_set iter_key i k)) in
         retT (keys ++ [iter_key], iter_key)) in
  do _ := t_zero_fill iter_key in
  do _ := t_zero_fill key in
  retT keys.
Definition t_expand_iter_key : list bytes -> bytes -> T (list bytes) := t_expand 623 625 627 628 (fun j i => j * 4 + i).
Definition t_expand_iter_key_final : list bytes -> bytes -> T (list bytes) := t_expand 633 634 636 637 (fun j i => 28 - j * 4 + i).
(** gost_34_12_2015.py 599-612 [__init__], without the object identifier in line 606. *)
Definition t_magma_new (key : bytes) : T (list bytes) :=
  at_ Enter FCipher 599 then
  do keys := t_expand_iter_key [] key in
  do keys := t_expand_iter_key keys key in
  do keys := t_expand_iter_key keys key in
  do keys := t_expand_iter_key_final keys key in
  do _ := t_zero_fill key in
  retT keys.
(** gost_34_12_2015.py 736-758 [decrypt]. *)
Definition t_magma_decrypt (keys : list bytes) (block : bytes) : T bytes :=
  at_ Enter FCipher 736 then
  do k := t_read 749 3 keys 31 in
  do result := t_cipher_g_prev k block in
  do result :=
    t_for FCipher 751 (py_range 30 0 (-1)) result
      (fun i result => do k := t_read 753 3 keys i in t_cipher_g_prev k result) in
  do k := t_read 756 3 keys 0 in
  t_cipher_g_fin k result.
