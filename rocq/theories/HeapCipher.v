(** * utils.py and gost_34_12_2015.py with buffers as addresses

    The same functions as in Utils.v, Kuznechik.v and Magma.v, statement by statement, with every
    [bytearray] a heap cell.  Local buffers that are created and never used again are left out. *)
From Verif Require Import PyBase PyState Utils CipherTables Kuznechik Magma Heap.

(** utils.py 48-65 [add_xor]. *)
Definition h_add_xor (op_a op_b : buf) : M heap buf :=
  let! op_a := h_bytearray op_a in
  let! op_b := h_bytearray op_b in
  let! la := h_len op_a in
  let! lb := h_len op_b in
  let result_len := Z.min la lb in
  let! result := alloc (py_repeat 0 result_len) in
  let! _ :=
    forM (py_range 0 result_len 1) tt
      (fun i _ =>
         let! a := h_get op_a i in
         let! b := h_get op_b i in
         h_set result i (Z.lxor a b) ;!
         retM tt) in
  retM result.

(** utils.py 68-82 [zero_fill]. *)
Definition h_zero_fill (value : buf) : M heap buf :=
  let! n := h_len value in
  h_bytearray (Imm (bytes_mul slash_x00 n)).

(** utils.py 98-111 [int_to_bytearray]. *)
Definition h_int_to_bytearray (value num_byte : Z) : M heap buf := alloc (int_to_bytearray value num_byte).

(** ** GOST34122015Kuznechik *)

(** gost_34_12_2015.py 456-468 [_cipher_s], [_cipher_s_reverse]. *)
Definition h_cipher_s_with (sbox : list Z) (data : buf) : M heap buf :=
  let! result := alloc (py_repeat 0 _BLOCK_SIZE_KUZNECHIK) in
  let! _ :=
    forM (py_range 0 _BLOCK_SIZE_KUZNECHIK 1) tt
      (fun i _ =>
         let! d := h_get data i in
         let! v := liftM (py_get sbox d) in
         h_set result i v ;!
         retM tt) in
  retM result.
Definition h_cipher_s : buf -> M heap buf := h_cipher_s_with _S_BOX_KUZNECHIK.
Definition h_cipher_s_reverse : buf -> M heap buf := h_cipher_s_with _S_BOX_REVERSE_KUZNECHIK.

(** gost_34_12_2015.py 470-478 [_cipher_r]. *)
Definition h_cipher_r (data : buf) : M heap buf :=
  let! result := alloc (py_repeat 0 _BLOCK_SIZE_KUZNECHIK) in
  let! a_0 :=
    forM (py_range 0 _BLOCK_SIZE_KUZNECHIK 1) 0
      (fun i a_0 =>
         let! d := h_get data (i - 1) in
         h_set result i d ;!
         let! row := liftM (py_get _GF i) in
         let! ri := h_get result i in
         let! g := liftM (py_get row ri) in
         retM (Z.lxor a_0 g)) in
  h_set result 0 a_0 ;!
  retM result.

(** gost_34_12_2015.py 480-488 [_cipher_r_reverse]. *)
Definition h_cipher_r_reverse (data : buf) : M heap buf :=
  let! result := alloc (py_repeat 0 _BLOCK_SIZE_KUZNECHIK) in
  let! a_15 :=
    forM (py_range (_BLOCK_SIZE_KUZNECHIK - 1) (-1) (-1)) 0
      (fun i a_15 =>
         let! d := h_get data i in
         h_set result (i - 1) d ;!
         let! row := liftM (py_get _GF i) in
         let! d' := h_get data i in
         let! g := liftM (py_get row d') in
         retM (Z.lxor a_15 g)) in
  h_set result 15 a_15 ;!
  retM result.

(** gost_34_12_2015.py 490-504 [_cipher_l], [_cipher_l_reverse]. *)
Definition h_cipher_l (data : buf) : M heap buf := forM (py_range 0 16 1) data (fun _ result => h_cipher_r result).
Definition h_cipher_l_reverse (data : buf) : M heap buf := forM (py_range 0 16 1) data (fun _ result => h_cipher_r_reverse result).

(** gost_34_12_2015.py 506-510 [_cipher_get_c]. *)
Definition h_cipher_get_c : M heap (list buf) :=
  forM (py_range 1 33 1) []
    (fun i cipher_c =>
       let! internal := alloc (py_repeat 0 _BLOCK_SIZE_KUZNECHIK) in
       h_set internal 15 i ;!
       let! c := h_cipher_l internal in
       retM (cipher_c ++ [c])).

(** gost_34_12_2015.py 419-445 [__init__]: the list [_cipher_iter_key]. *)
Definition h_kuz_new (key : buf) : M heap (list buf) :=
  let! cipher_c := h_cipher_get_c in
  let! key_1 := h_upto key (_KEY_SIZE / 2) in
  let! key_2 := h_from key (_KEY_SIZE / 2) in
  let! (keys, _, _) :=
    forM (py_range 0 4 1) ([key_1; key_2], key_1, key_2)
      (fun i '(keys, key_1, key_2) =>
         let! (key_1, key_2) :=
           forM (py_range 0 8 1) (key_1, key_2)
             (fun j '(key_1, key_2) =>
                let! c := liftM (py_get cipher_c (i * 8 + j)) in
                let! internal := h_add_xor key_1 c in
                let! internal := h_cipher_s internal in
                let! internal := h_cipher_l internal in
                let! x := h_add_xor internal key_2 in
                retM (x, key_1)) in
         retM (keys ++ [key_1] ++ [key_2], key_1, key_2)) in
  retM keys.

(** gost_34_12_2015.py 532-549 [decrypt]. *)
Definition h_kuz_decrypt (keys : list buf) (block : buf) : M heap buf :=
  let! block := h_bytearray block in
  let! k9 := liftM (py_get keys 9) in
  let! block := h_add_xor k9 block in
  forM (py_range 8 (-1) (-1)) block
    (fun i block =>
       let! block := h_cipher_l_reverse block in
       let! block := h_cipher_s_reverse block in
       let! k := liftM (py_get keys i) in
       h_add_xor k block).

(** gost_34_12_2015.py 551-568 [encrypt]. *)
Definition h_kuz_encrypt (keys : list buf) (block : buf) : M heap buf :=
  let! block := h_bytearray block in
  let! block :=
    forM (py_range 0 9 1) block
      (fun i block =>
         let! k := liftM (py_get keys i) in
         let! block := h_add_xor k block in
         let! block := h_cipher_s block in
         h_cipher_l block) in
  let! k9 := liftM (py_get keys 9) in
  h_add_xor k9 block.

(** gost_34_12_2015.py 570-573 [clear]: new buffers are put in the list. *)
Definition h_keys_clear (n : Z) (keys : list buf) : M heap (list buf) :=
  forM (py_range 0 n 1) keys
    (fun i keys =>
       let! k := liftM (py_get keys i) in
       let! z := h_zero_fill k in
       liftM (py_set_list keys i z)).
Definition h_kuz_clear : list buf -> M heap (list buf) := h_keys_clear 10.

(** ** GOST34122015Magma *)

(** gost_34_12_2015.py 623-640 [_expand_iter_key], [_expand_iter_key_final]; [at_] is the index. *)
Definition h_expand (at_ : Z -> Z -> Z) (keys : list buf) (key : buf) : M heap (list buf) :=
  forM (py_range 0 8 1) keys
    (fun j keys =>
       let! iter_key := alloc (py_repeat 0 4) in
       let! _ :=
         forM (py_range 0 4 1) tt
           (fun i _ =>
              let! k := h_get key (at_ j i) in
              h_set iter_key i k ;!
              retM tt) in
       retM (keys ++ [iter_key])).

(** gost_34_12_2015.py 599-612 [__init__]. *)
Definition h_magma_new (key : buf) : M heap (list buf) :=
  let! keys := h_expand (fun j i => j * 4 + i) [] key in
  let! keys := h_expand (fun j i => j * 4 + i) keys key in
  let! keys := h_expand (fun j i => j * 4 + i) keys key in
  h_expand (fun j i => 28 - j * 4 + i) keys key.

(** gost_34_12_2015.py 642-652 [_cipher_t]. *)
Definition h_cipher_t (data : buf) : M heap buf :=
  let! result := alloc (py_repeat 0 4) in
  let! data := h_bytearray data in
  let! _ :=
    forM (py_range 0 4 1) tt
      (fun i _ =>
         let! d := h_get data i in
         let first_part_byte := Z.land d 0x0f in
         let! d' := h_get data i in
         let sec_part_byte := Z.shiftr (Z.land d' 0xf0) 4 in
         let! row1 := liftM (py_get _S_BOX_MAGMA ((3 - i) * 2)) in
         let! first_part_byte := liftM (py_get row1 first_part_byte) in
         let! row2 := liftM (py_get _S_BOX_MAGMA ((3 - i) * 2 + 1)) in
         let! sec_part_byte := liftM (py_get row2 sec_part_byte) in
         h_set result i (Z.lor (Z.shiftl sec_part_byte 4) first_part_byte) ;!
         retM tt) in
  retM result.

(** gost_34_12_2015.py 654-663 [_cipher_add_32]. *)
Definition h_cipher_add_32 (op_a op_b : buf) : M heap buf :=
  let! op_a := h_bytearray op_a in
  let! op_b := h_bytearray op_b in
  let! result := alloc (py_repeat 0 4) in
  let! _ :=
    forM (py_range 3 (-1) (-1)) 0
      (fun i internal =>
         let! a := h_get op_a i in
         let! b := h_get op_b i in
         let internal := a + b + Z.shiftr internal 8 in
         h_set result i (Z.land internal 0xff) ;!
         retM internal) in
  retM result.

(** gost_34_12_2015.py 665-681 [_cipher_g]. *)
Definition h_cipher_g (cipher_k cipher_a : buf) : M heap buf :=
  let! cipher_k := h_bytearray cipher_k in
  let! cipher_a := h_bytearray cipher_a in
  let! internal := h_cipher_add_32 cipher_k cipher_a in
  let! internal := h_cipher_t internal in
  let! i0 := h_get internal 0 in
  let! i1 := h_get internal 1 in
  let! i2 := h_get internal 2 in
  let! i3 := h_get internal 3 in
  let result_32 := i0 in
  let result_32 := Z.shiftl result_32 8 + i1 in
  let result_32 := Z.shiftl result_32 8 + i2 in
  let result_32 := Z.shiftl result_32 8 + i3 in
  let result_32 := Z.lor (Z.shiftl result_32 11) (Z.shiftr result_32 21) in
  let result_32 := Z.land result_32 0xffffffff in
  h_bytearray (Imm (int_to_bytearray result_32 4)).

(** gost_34_12_2015.py 683-688 [_cipher_g_iter_result]. *)
Definition h_cipher_g_iter_result (a_0 a_1 : buf) : M heap buf :=
  let! result := alloc (py_repeat 0 _BLOCK_SIZE_MAGMA) in
  h_slice_set result 0 4 a_1 ;!
  h_slice_set result 4 _BLOCK_SIZE_MAGMA a_0 ;!
  retM result.

(** gost_34_12_2015.py 690-701 [_cipher_g_iter]. *)
Definition h_cipher_g_iter (cipher_k cipher_a : buf) : M heap (buf * buf * buf) :=
  let! cipher_k := h_bytearray cipher_k in
  let! cipher_a := h_bytearray cipher_a in
  let! a_1 := h_slice cipher_a 0 4 in
  let! a_0 := h_slice cipher_a 4 _BLOCK_SIZE_MAGMA in
  let! cipher_g := h_cipher_g cipher_k a_0 in
  let! cipher_g := h_add_xor a_1 cipher_g in
  retM (a_0, a_1, cipher_g).

(** gost_34_12_2015.py 703-714 [_cipher_g_prev], [_cipher_g_fin]. *)
Definition h_cipher_g_prev (cipher_k cipher_a : buf) : M heap buf :=
  let! (a_0, a_1, cipher_g) := h_cipher_g_iter cipher_k cipher_a in
  h_cipher_g_iter_result cipher_g a_0.
Definition h_cipher_g_fin (cipher_k cipher_a : buf) : M heap buf :=
  let! (a_0, a_1, cipher_g) := h_cipher_g_iter cipher_k cipher_a in
  h_cipher_g_iter_result a_0 cipher_g.

(** gost_34_12_2015.py 736-758 [decrypt]. *)
Definition h_magma_decrypt (keys : list buf) (block : buf) : M heap buf :=
  let! k := liftM (py_get keys 31) in
  let! result := h_cipher_g_prev k block in
  let! result :=
    forM (py_range 30 0 (-1)) result
      (fun i result => let! k := liftM (py_get keys i) in h_cipher_g_prev k result) in
  let! k := liftM (py_get keys 0) in
  h_cipher_g_fin k result.

(** gost_34_12_2015.py 760-782 [encrypt]. *)
Definition h_magma_encrypt (keys : list buf) (block : buf) : M heap buf :=
  let! k := liftM (py_get keys 0) in
  let! result := h_cipher_g_prev k block in
  let! result :=
    forM (py_range 1 31 1) result
      (fun i result => let! k := liftM (py_get keys i) in h_cipher_g_prev k result) in
  let! k := liftM (py_get keys 31) in
  h_cipher_g_fin k result.

(** gost_34_12_2015.py 784-787 [clear]. *)
Definition h_magma_clear : list buf -> M heap (list buf) := h_keys_clear 32.
