(** * The steps of the block ciphers.

    [encrypt] of both classes of gostcipher/gost_34_12_2015.py with the steps it goes through, as in Trace.v.
    The operand of a [Read] is 0 for the data, 1 for a look-up in a table with an index taken from the
    data, 2 for the choice of a row of a table of tables and 3 for the list of round keys. *)
From Verif Require Import PyBase PyLoop Utils CipherTables Kuznechik Magma SpecTrace Trace.
Open Scope list_scope.
Open Scope Z_scope.

Definition t_read {A} (line operand : Z) (l : list A) (i : Z) : T A :=
  at_ Read FCipher line operand i then stopT (liftO (py_get l i)).
Definition t_res {A} (r : res A) : T A := stopT (liftO r).

(** utils.py 48-65 [add_xor]: the loop in line 63 and the two reads in line 64; the value as in [add_xor]. *)
Definition t_add_xor (op_a op_b : bytes) : T bytes :=
  (Enter FUtils 48 ::
   concat (map (fun i => [Test FUtils 63 true; Read FUtils 64 0 i; Read FUtils 64 1 i]) (py_range 0 (Z.min (len op_a) (len op_b)) 1)) ++ [Test FUtils 63 false],
   Returns (add_xor op_a op_b)).

(** gost_34_12_2015.py 456-461 [_cipher_s]. *)
Definition t_cipher_s (data : bytes) : T bytes :=
  at_ Enter FCipher 457 then
  t_for FCipher 459 (py_range 0 _BLOCK_SIZE_KUZNECHIK 1) (py_repeat 0 _BLOCK_SIZE_KUZNECHIK)
    (fun i result =>
       do d := t_read 460 0 data i in
       do v := t_read 460 1 _S_BOX_KUZNECHIK d in
       t_res (py_set result i v)).
(** gost_34_12_2015.py 470-478 [_cipher_r]. *)
Definition t_cipher_r (data : bytes) : T bytes :=
  at_ Enter FCipher 471 then
  do (a_0, result) :=
    t_for FCipher 474 (py_range 0 _BLOCK_SIZE_KUZNECHIK 1) (0, py_repeat 0 _BLOCK_SIZE_KUZNECHIK)
      (fun i '(a_0, result) =>
         do d := t_read 475 0 data (i - 1) in
         do result' := t_res (py_set result i d) in
         do row := t_read 476 2 _GF i in
         do ri := t_read 476 0 result' i in
         do g := t_read 476 1 row ri in
         retT (Z.lxor a_0 g, result')) in
  t_res (py_set result 0 a_0).
(** gost_34_12_2015.py 490-496 [_cipher_l]. *)
Definition t_cipher_l (data : bytes) : T bytes :=
  at_ Enter FCipher 491 then
  t_for FCipher 494 (py_range 0 16 1) data (fun _ result => t_cipher_r result).
(** gost_34_12_2015.py 551-568 [encrypt]. *)
Definition t_kuz_encrypt (keys : list bytes) (block : bytes) : T bytes :=
  at_ Enter FCipher 551 then
  do block :=
    t_for FCipher 563 (py_range 0 9 1) block
      (fun i block =>
         do k := t_read 564 3 keys i in
         do block := t_add_xor k block in
         do block := t_cipher_s block in
         t_cipher_l block) in
  do k9 := t_read 567 3 keys 9 in
  t_add_xor k9 block.

(** gost_34_12_2015.py 642-652 [_cipher_t]. *)
Definition t_cipher_t (data : bytes) : T bytes :=
  at_ Enter FCipher 643 then
  t_for FCipher 646 (py_range 0 4 1) (py_repeat 0 4)
    (fun i result =>
       do d := t_read 647 0 data i in
       let first_part_byte := Z.land d 0x0f in
       do d := t_read 648 0 data i in
       let sec_part_byte := Z.shiftr (Z.land d 0xf0) 4 in
       do row1 := t_read 649 2 _S_BOX_MAGMA ((3 - i) * 2) in
       do first_part_byte := t_read 649 1 row1 first_part_byte in
       do row2 := t_read 650 2 _S_BOX_MAGMA ((3 - i) * 2 + 1) in
       do sec_part_byte := t_read 650 1 row2 sec_part_byte in
       t_res (py_set result i (Z.lor (Z.shiftl sec_part_byte 4) first_part_byte))).
(** gost_34_12_2015.py 654-663 [_cipher_add_32]. *)
Definition t_cipher_add_32 (op_a op_b : bytes) : T bytes :=
  at_ Enter FCipher 655 then
  do (_, result) :=
    t_for FCipher 660 (py_range 3 (-1) (-1)) (0, py_repeat 0 4)
      (fun i '(internal, result) =>
         do a := t_read 661 0 op_a i in
         do b := t_read 661 0 op_b i in
         let internal := a + b + Z.shiftr internal 8 in
         do result := t_res (py_set result i (Z.land internal 0xff)) in
         retT (internal, result)) in
  retT result.
(** gost_34_12_2015.py 665-681 [_cipher_g]. *)
Definition t_cipher_g (cipher_k cipher_a : bytes) : T bytes :=
  at_ Enter FCipher 666 then
  do internal := t_cipher_add_32 cipher_k cipher_a in
  do internal := t_cipher_t internal in
  do i0 := t_read 674 0 internal 0 in
  do i1 := t_read 675 0 internal 1 in
  do i2 := t_read 676 0 internal 2 in
  do i3 := t_read 677 0 internal 3 in
  let result_32 := i0 in
  let result_32 := Z.shiftl result_32 8 + i1 in
  let result_32 := Z.shiftl result_32 8 + i2 in
  let result_32 := Z.shiftl result_32 8 + i3 in
  let result_32 := Z.lor (Z.shiftl result_32 11) (Z.shiftr result_32 21) in
  let result_32 := Z.land result_32 0xffffffff in
  retT (int_to_bytearray result_32 4).
(** gost_34_12_2015.py 690-701 [_cipher_g_iter]. *)
Definition t_cipher_g_iter (cipher_k cipher_a : bytes) : T (bytes * bytes * bytes) :=
  at_ Enter FCipher 691 then
  let a_1 := py_slice cipher_a 0 4 in
  let a_0 := py_slice cipher_a 4 _BLOCK_SIZE_MAGMA in
  do cipher_g := t_cipher_g cipher_k a_0 in
  do cipher_g := t_add_xor a_1 cipher_g in
  retT (a_0, a_1, cipher_g).
(** gost_34_12_2015.py 703-708 [_cipher_g_prev]; 683-688 [_cipher_g_iter_result]. *)
Definition t_cipher_g_prev (cipher_k cipher_a : bytes) : T bytes :=
  at_ Enter FCipher 704 then
  do (a_0, _, cipher_g) := t_cipher_g_iter cipher_k cipher_a in
  at_ Enter FCipher 684 then
  retT (_cipher_g_iter_result cipher_g a_0).
(** gost_34_12_2015.py 710-714 [_cipher_g_fin]. *)
Definition t_cipher_g_fin (cipher_k cipher_a : bytes) : T bytes :=
  at_ Enter FCipher 711 then
  do (a_0, _, cipher_g) := t_cipher_g_iter cipher_k cipher_a in
  at_ Enter FCipher 684 then
  retT (_cipher_g_iter_result a_0 cipher_g).
(** gost_34_12_2015.py 760-782 [encrypt]. *)
Definition t_magma_encrypt (keys : list bytes) (block : bytes) : T bytes :=
  at_ Enter FCipher 760 then
  do k := t_read 773 3 keys 0 in
  do result := t_cipher_g_prev k block in
  do result :=
    t_for FCipher 775 (py_range 1 31 1) result
      (fun i result => do k := t_read 777 3 keys i in t_cipher_g_prev k result) in
  do k := t_read 780 3 keys 31 in
  t_cipher_g_fin k result.
