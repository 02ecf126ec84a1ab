(** * gost_34_13_2015.py with buffers as addresses
 
    The methods of Modes.v and Mac.v, statement by statement, on objects whose attributes are
    buffers of a heap.  A method changes the attributes of its object and the heap. *)
From Verif Require Import PyBase PyState Utils Kuznechik Magma CipherObj Modes Mac Heap HeapCipher.
Open Scope string_scope.
Open Scope list_scope.
Open Scope Z_scope.

(** An argument: a bytearray, or a value that cannot change ([AVal (VBytes l)] is a [bytes] object). *)
Inductive arg : Type :=
| ABuf (a : nat)
| AVal (p : pyval).

Definition as_buf (x : arg) : option buf :=
  match x with ABuf a => Some (Ref a) | AVal (VBytes l) => Some (Imm l) | AVal _ => None end.
Definition arg_of (v : buf) : arg := match v with Imm l => AVal (VBytes l) | Ref a => ABuf a end.

(** Computations on an object of type [S] and the heap. *)
Definition onheap {S A} (m : M heap A) : M (S * heap) A := fun '(s, h) => let (r, h') := m h in (r, (s, h')).
Definition getO {S} : M (S * heap) S := fun '(s, h) => (Ok s, (s, h)).
Definition putO {S} (s' : S) : M (S * heap) unit := fun '(_, h) => (Ok tt, (s', h)).

(** ** The block cipher objects *)
Inductive hcipher : Type :=
| HKuz (keys : list buf)
| HMagma (keys : list buf).

Definition hc_keys (c : hcipher) : list buf := match c with HKuz k => k | HMagma k => k end.
Definition hc_block_size (c : hcipher) : Z := match c with HKuz _ => _BLOCK_SIZE_KUZNECHIK | HMagma _ => _BLOCK_SIZE_MAGMA end.
Definition hc_encrypt (c : hcipher) (block : buf) : M heap buf :=
  match c with HKuz keys => h_kuz_encrypt keys block | HMagma keys => h_magma_encrypt keys block end.
Definition hc_decrypt (c : hcipher) (block : buf) : M heap buf :=
  match c with HKuz keys => h_kuz_decrypt keys block | HMagma keys => h_magma_decrypt keys block end.
Definition hc_clear (c : hcipher) : M heap hcipher :=
  match c with
  | HKuz keys => let! keys := h_kuz_clear keys in retM (HKuz keys)
  | HMagma keys => let! keys := h_magma_clear keys in retM (HMagma keys)
  end.

(** utils.py 68-82 [zero_fill] on any value, as called before an exception. *)
Definition h_zero_arg (x : arg) : M heap buf :=
  match as_buf x with Some v => h_zero_fill v | None => retM (Imm []) end.

(** ** The mode objects *)
Record hobj : Type := {
  h_class : mode_class;
  h_cipher : hcipher;
  h_pad_mode : Z;
  h_init_vect : buf;
  h_counter : buf
}.
Definition h_block_size (s : hobj) : Z := hc_block_size (h_cipher s).
Definition h_set_cipher (s : hobj) (c : hcipher) : hobj :=
  {| h_class := h_class s; h_cipher := c; h_pad_mode := h_pad_mode s; h_init_vect := h_init_vect s; h_counter := h_counter s |}.
Definition h_set_counter (s : hobj) (v : buf) : hobj :=
  {| h_class := h_class s; h_cipher := h_cipher s; h_pad_mode := h_pad_mode s; h_init_vect := h_init_vect s; h_counter := v |}.

Notation HM := (M (hobj * heap)).

(** gost_34_13_2015.py 212-238 [GOST34132015.__init__]. *)
Definition h_base_init (algorithm : pyval) (key : arg) : M heap hcipher :=
  let in_tuple :=
    match algorithm with
    | VStr a => String.eqb a "magma" || String.eqb a "kuznechik"
    | _ => false
    end in
  if negb in_tuple then
    let! _ := h_zero_arg key in
    raiseM (GOSTCipherError "GOSTCipherError: unsupported cipher algorithm")
  else
    let! ok :=
      match as_buf key with
      | Some v => let! n := h_len v in retM (n =? _KEY_SIZE_13)
      | None => retM false
      end in
    if negb ok then
      let! _ := h_zero_arg key in
      raiseM (GOSTCipherError "GOSTCipherError: invalid key value")
    else
      match algorithm, as_buf key with
      | VStr a, Some k =>
          if String.eqb a "kuznechik" then let! keys := h_kuz_new k in retM (HKuz keys)
          else let! keys := h_magma_new k in retM (HMagma keys)
      | _, _ => raiseM TypeError
      end.

(** gost_34_13_2015.py 261-264 [_get_block]. *)
Definition h_get_block (bs : Z) (data : buf) (count_block : Z) : M heap buf :=
  let begin_block := bs * count_block in
  let end_block := bs + bs * count_block in
  h_slice data begin_block end_block.

(** gost_34_13_2015.py 266-269 [clear]. *)
Definition h_clear : HM unit :=
  let! self := getO in
  let! c := onheap (hc_clear (h_cipher self)) in
  putO (h_set_cipher self c).

(** gost_34_13_2015.py 301-339 [GOST34132015Cipher.encrypt], [decrypt]: the argument itself is returned. *)
Definition h_check (msg : string) (data : arg) : HM buf :=
  match as_buf data with
  | Some v => retM v
  | None => h_clear ;! raiseM (GOSTCipherError msg)
  end.
Definition h_check_plaintext : arg -> HM buf := h_check "GOSTCipherError: invalid plaintext data".
Definition h_check_ciphertext : arg -> HM buf := h_check "GOSTCipherError: invalid ciphertext data".

(** gost_34_13_2015.py 376-388 [_set_pad_mode_1], [_set_pad_mode_2], [_set_padding]. *)
Definition h_set_pad_mode_1 (bs : Z) (data : buf) : M heap buf :=
  let! d := rd data in
  h_add data (Imm (py_repeat 0x00 (_get_pad_size bs d))).
Definition h_set_pad_mode_2 (bs : Z) (data : buf) : M heap buf :=
  let! x := h_add data (Imm [0x80]) in
  let! d := rd data in
  h_add x (Imm (py_repeat 0x00 (bs + _get_pad_size bs d - 1))).
Definition h_set_padding (bs : Z) (data : buf) (pad_mode : Z) : M heap buf :=
  if pad_mode =? PAD_MODE_1 then h_set_pad_mode_1 bs data
  else if pad_mode =? PAD_MODE_2 then h_set_pad_mode_2 bs data
  else retM data.

(** gost_34_13_2015.py 390-406 [GOST34132015CipherPadding.encrypt]. *)
Definition h_padding_encrypt (data : arg) : HM buf :=
  let! data := h_check_plaintext data in
  let! self := getO in
  onheap (h_set_padding (h_block_size self) data (h_pad_mode self)).

(** gost_34_13_2015.py 361-375 [GOST34132015CipherPadding.__init__]. *)
Definition h_padding_init (algorithm : pyval) (key : arg) (pad_mode : pyval) : M heap (hcipher * Z) :=
  let! c := h_base_init algorithm key in
  match pad_mode with
  | VInt p =>
      if (p =? PAD_MODE_1) || (p =? PAD_MODE_2) then retM (c, p)
      else let! _ := hc_clear c in raiseM (GOSTCipherError "GOSTCipherError: invalid padding mode")
  | _ => let! _ := hc_clear c in raiseM (GOSTCipherError "GOSTCipherError: invalid padding mode")
  end.

(** gost_34_13_2015.py 448-464 [GOST34132015CipherFeedBack.__init__]: a copy of the argument. *)
Definition h_feedback_init (algorithm : pyval) (key init_vect : arg) : M heap (hcipher * buf) :=
  let! c := h_base_init algorithm key in
  let invalid := let! _ := hc_clear c in raiseM (GOSTCipherError "GOSTCipherError: invalid initialization vector value") in
  match as_buf init_vect with
  | Some v =>
      let! n := h_len v in
      if negb (n mod hc_block_size c =? 0) then invalid
      else let! iv := h_bytearray v in retM (c, iv)
  | None => invalid
  end.

(** gost_34_13_2015.py 465-466 [_get_gamma]. *)
Definition h_get_gamma : HM buf :=
  let! self := getO in
  let! x := onheap (h_slice (h_init_vect self) 0 (h_block_size self)) in
  onheap (hc_encrypt (h_cipher self) x).

(** gost_34_13_2015.py 468-473 [_set_init_vect]: the attribute is changed in place. *)
Definition h_shift_iv (iv : buf) (bs : Z) (data : buf) : M heap unit :=
  let! n := h_len iv in
  let! iter_iv_hi := h_slice iv bs n in
  h_slice_set iv 0 (n - bs) iter_iv_hi ;!
  let! n := h_len iv in
  let begin_iv_low := n - bs in
  let end_iv_low := n in
  h_slice_set iv begin_iv_low end_iv_low data ;!
  retM tt.
Definition h_set_init_vect (data : buf) : HM unit :=
  let! self := getO in
  onheap (h_shift_iv (h_init_vect self) (h_block_size self) data).

(** gost_34_13_2015.py 475-476 [_get_final_block]. *)
Definition h_get_final_block (bs : Z) (data : buf) : M heap buf :=
  let! d := rd data in
  h_from data (bs * _get_num_block bs d).

(** gost_34_13_2015.py 478-481 [_final_cipher]. *)
Definition h_final_cipher (data : buf) : HM buf :=
  let! gamma := h_get_gamma in
  let! self := getO in
  let! cipher_block := onheap (h_get_final_block (h_block_size self) data) in
  onheap (h_add_xor gamma cipher_block).

(** gost_34_13_2015.py 520-523 [iv]: a slice, that is a new buffer. *)
Definition h_iv : HM buf :=
  let! self := getO in
  let! n := onheap (h_len (h_init_vect self)) in
  onheap (h_from (h_init_vect self) (n - h_block_size self)).

(** gost_34_13_2015.py 850-853 [counter]: the attribute itself. *)
Definition h_get_counter : HM buf :=
  let! self := getO in
  retM (h_counter self).

(** gost_34_13_2015.py 544-562 [GOST34132015ecb.encrypt]. *)
Definition h_ecb_encrypt (data : arg) : HM buf :=
  let! result := onheap (alloc []) in
  let! data := h_padding_encrypt data in
  let! self := getO in
  let! d := onheap (rd data) in
  forM (py_range 0 (_get_num_block (h_block_size self) d) 1) result
    (fun i result =>
       let! x := onheap (h_get_block (h_block_size self) data i) in
       let! b := onheap (hc_encrypt (h_cipher self) x) in
       onheap (h_add result b)).

(** gost_34_13_2015.py 564-583 [GOST34132015ecb.decrypt]. *)
Definition h_ecb_decrypt (data : arg) : HM buf :=
  let! result := onheap (alloc []) in
  let! data := h_check_ciphertext data in
  let! self := getO in
  let! d := onheap (rd data) in
  forM (py_range 0 (_get_num_block (h_block_size self) d) 1) result
    (fun i result =>
       let! x := onheap (h_get_block (h_block_size self) data i) in
       let! b := onheap (hc_decrypt (h_cipher self) x) in
       onheap (h_add result b)).

(** gost_34_13_2015.py 620-641 [GOST34132015cbc.encrypt]. *)
Definition h_cbc_encrypt (data : arg) : HM buf :=
  let! result := onheap (alloc []) in
  let! data := h_padding_encrypt data in
  let! self := getO in
  let bs := h_block_size self in
  let! d := onheap (rd data) in
  forM (py_range 0 (_get_num_block bs d) 1) result
    (fun i result =>
       let! self := getO in
       let! y := onheap (h_slice (h_init_vect self) 0 bs) in
       let! x := onheap (h_get_block bs data i) in
       let! internal := onheap (h_add_xor y x) in
       let! cipher_block := onheap (hc_encrypt (h_cipher self) internal) in
       let! result := onheap (h_add result cipher_block) in
       let! z := onheap (h_slice cipher_block 0 bs) in
       h_set_init_vect z ;!
       retM result).

(** gost_34_13_2015.py 643-664 [GOST34132015cbc.decrypt]. *)
Definition h_cbc_decrypt (data : arg) : HM buf :=
  let! result := onheap (alloc []) in
  let! data := h_check_ciphertext data in
  let! self := getO in
  let bs := h_block_size self in
  let! d := onheap (rd data) in
  forM (py_range 0 (_get_num_block bs d) 1) result
    (fun i result =>
       let! self := getO in
       let! x := onheap (h_get_block bs data i) in
       let! internal := onheap (hc_decrypt (h_cipher self) x) in
       let! y := onheap (h_slice (h_init_vect self) 0 bs) in
       let! cipher_block := onheap (h_add_xor y internal) in
       let! result := onheap (h_add result cipher_block) in
       let! z := onheap (h_get_block bs data i) in
       h_set_init_vect z ;!
       retM result).

(** gost_34_13_2015.py 685-709 [GOST34132015cfb.encrypt]. *)
Definition h_cfb_encrypt (data : arg) : HM buf :=
  let! result := onheap (alloc []) in
  let! data := h_check_plaintext data in
  let! self := getO in
  let bs := h_block_size self in
  let! d := onheap (rd data) in
  let! result :=
    forM (py_range 0 (_get_num_block bs d) 1) result
      (fun i result =>
         let! gamma := h_get_gamma in
         let! x := onheap (h_get_block bs data i) in
         let! cipher_block := onheap (h_add_xor gamma x) in
         let! result := onheap (h_add result cipher_block) in
         let! z := onheap (h_slice cipher_block 0 bs) in
         h_set_init_vect z ;!
         retM result) in
  if negb (len d mod bs =? 0) then
    let! f := h_final_cipher data in
    onheap (h_add result f)
  else retM result.

(** gost_34_13_2015.py 711-736 [GOST34132015cfb.decrypt]. *)
Definition h_cfb_decrypt (data : arg) : HM buf :=
  let! result := onheap (alloc []) in
  let! data := h_check_ciphertext data in
  let! self := getO in
  let bs := h_block_size self in
  let! d := onheap (rd data) in
  let! result :=
    forM (py_range 0 (_get_num_block bs d) 1) result
      (fun i result =>
         let! gamma := h_get_gamma in
         let! cipher_block := onheap (h_get_block bs data i) in
         let! x := onheap (h_add_xor gamma cipher_block) in
         let! result := onheap (h_add result x) in
         h_set_init_vect cipher_block ;!
         retM result) in
  if negb (len d mod bs =? 0) then
    let! f := h_final_cipher data in
    onheap (h_add result f)
  else retM result.

(** gost_34_13_2015.py 757-781 [GOST34132015ofb.encrypt]. *)
Definition h_ofb_encrypt (data : arg) : HM buf :=
  let! result := onheap (alloc []) in
  let! data := h_check_plaintext data in
  let! self := getO in
  let bs := h_block_size self in
  let! d := onheap (rd data) in
  let! result :=
    forM (py_range 0 (_get_num_block bs d) 1) result
      (fun i result =>
         let! gamma := h_get_gamma in
         let! cipher_block := onheap (h_get_block bs data i) in
         let! x := onheap (h_add_xor gamma cipher_block) in
         let! result := onheap (h_add result x) in
         let! z := onheap (h_slice gamma 0 bs) in
         h_set_init_vect z ;!
         retM result) in
  if negb (len d mod bs =? 0) then
    let! f := h_final_cipher data in
    onheap (h_add result f)
  else retM result.

(** gost_34_13_2015.py 783-799 [GOST34132015ofb.decrypt]. *)
Definition h_ofb_decrypt (data : arg) : HM buf :=
  let! _ := h_check_ciphertext data in
  h_ofb_encrypt data.

(** gost_34_13_2015.py 821-839 [GOST34132015ctr.__init__]. *)
Definition h_ctr_init (algorithm : pyval) (key init_vect : arg) : M heap (hcipher * buf * buf) :=
  let! c := h_base_init algorithm key in
  let invalid := let! _ := hc_clear c in raiseM (GOSTCipherError "GOSTCipherError: invalid initialization vector value") in
  match as_buf init_vect with
  | Some v =>
      let! n := h_len v in
      if negb (n =? hc_block_size c / 2) then invalid
      else
        let! iv := h_bytearray v in
        let! counter := h_add v (Imm (py_repeat 0x00 (hc_block_size c / 2))) in
        let! counter := h_bytearray counter in
        retM (c, iv, counter)
  | None => invalid
  end.

(** gost_34_13_2015.py 841-848 [_inc_ctr]: the argument is changed in place and returned. *)
Definition h_inc_ctr (bs : Z) (ctr : buf) : M heap buf :=
  let! bit := alloc (py_repeat 0 bs) in
  h_set bit (bs - 1) 0x01 ;!
  let! _ :=
    forM (py_range 0 bs 1) 0
      (fun i internal =>
         let! c := h_get ctr i in
         let! b := h_get bit i in
         let internal := c + b + Z.shiftl internal 8 in
         h_set ctr i (Z.land internal 0xff) ;!
         retM internal) in
  retM ctr.

(** gost_34_13_2015.py 873-874, 877-878. *)
Definition h_ctr_step : HM buf :=
  let! self := getO in
  let! gamma := onheap (hc_encrypt (h_cipher self) (h_counter self)) in
  let! ctr := onheap (h_inc_ctr (h_block_size self) (h_counter self)) in
  putO (h_set_counter self ctr) ;!
  retM gamma.

(** gost_34_13_2015.py 855-882 [GOST34132015ctr.encrypt]: the data is read after the counter is changed. *)
Definition h_ctr_encrypt (data : arg) : HM buf :=
  let! result := onheap (alloc []) in
  let! data := h_check_plaintext data in
  let! self := getO in
  let bs := h_block_size self in
  let! d := onheap (rd data) in
  let! result :=
    forM (py_range 0 (_get_num_block bs d) 1) result
      (fun i result =>
         let! gamma := h_ctr_step in
         let! x := onheap (h_get_block bs data i) in
         let! y := onheap (h_add_xor x gamma) in
         onheap (h_add result y)) in
  if negb (len d mod bs =? 0) then
    let! gamma := h_ctr_step in
    let! x := onheap (h_from data (bs * _get_num_block bs d)) in
    let! y := onheap (h_add_xor x gamma) in
    onheap (h_add result y)
  else retM result.

(** gost_34_13_2015.py 884-899 [GOST34132015ctr.decrypt]. *)
Definition h_ctr_decrypt (data : arg) : HM buf :=
  let! data := h_check_ciphertext data in
  h_ctr_encrypt (arg_of data).

Definition h_encrypt (data : arg) : HM buf :=
  let! self := getO in
  match h_class self with
  | ECB => h_ecb_encrypt data
  | CBC => h_cbc_encrypt data
  | CFB => h_cfb_encrypt data
  | OFB => h_ofb_encrypt data
  | CTR => h_ctr_encrypt data
  end.

Definition h_decrypt (data : arg) : HM buf :=
  let! self := getO in
  match h_class self with
  | ECB => h_ecb_decrypt data
  | CBC => h_cbc_decrypt data
  | CFB => h_cfb_decrypt data
  | OFB => h_ofb_decrypt data
  | CTR => h_ctr_decrypt data
  end.

(** ** The MAC object *)
Record hcm_obj : Type := {
  hcm_cipher : hcipher;
  hcm_key_1 : buf;
  hcm_key_2 : buf;
  hcm_fin_buff : buf;
  hcm_iter_buf : buf;
  hcm_prev_mac : buf;
  hcm_cur_mac : buf
}.
Notation MM := (M (hcm_obj * heap)).
Definition hcm_block_size (s : hcm_obj) : Z := hc_block_size (hcm_cipher s).

(** gost_34_13_2015.py 942-947 [_set_pad_mode_3]. *)
Definition h_set_pad_mode_3 (bs : Z) (data : buf) : M heap buf :=
  let! d := rd data in
  if _get_pad_size bs d =? 0 then retM data
  else
    let! x := h_add data (Imm [0x80]) in
    h_add x (Imm (py_repeat 0x00 (_get_pad_size bs d - 1))).

(** The two constants of lines 84-92, the five default vectors of lines 58-82: bytearrays of the
    module, at fixed addresses. *)
Definition a_IV_CTR_KUZNECHIK : nat := 0.
Definition a_IV_CTR_MAGMA : nat := 1.
Definition a_IV_KUZNECHIK : nat := 2.
Definition a_IV_MAGMA : nat := 3.
Definition a_IV_CBC_MAGMA : nat := 4.
Definition a_B_64 : nat := 5.
Definition a_B_128 : nat := 6.
Definition module_consts : heap :=
  [_DEFAULT_IV_CTR_KUZNECHIK; _DEFAULT_IV_CTR_MAGMA; _DEFAULT_IV_KUZNECHIK; _DEFAULT_IV_MAGMA; _DEFAULT_IV_CBC_MAGMA; _B_64; _B_128].

(** gost_34_13_2015.py 955-966. *)
Definition h_mac_double (bs : Z) (value_b value : buf) : M heap buf :=
  let! l := rd value in
  let! m := liftM (msb l) in
  if m =? 0 then
    let int_value := Z.shiftl (bytearray_to_int l) 1 in
    h_int_to_bytearray int_value bs
  else
    let int_value := Z.shiftl (bytearray_to_int l) 1 in
    let! x := h_int_to_bytearray int_value bs in
    h_add_xor x value_b.

(** gost_34_13_2015.py 949-967 [_get_mac_key]. *)
Definition h_get_mac_key (bs : Z) (value_r : buf) : M heap (buf * buf) :=
  let value_b := if bs =? 16 then Ref a_B_128 else if bs =? 8 then Ref a_B_64 else Imm [] in
  let! key_1 := h_mac_double bs value_b value_r in
  let! key_2 := h_mac_double bs value_b key_1 in
  retM (key_1, key_2).

(** gost_34_13_2015.py 266-269 [clear]. *)
Definition hcm_clear : MM unit :=
  let! self := getO in
  let! c := onheap (hc_clear (hcm_cipher self)) in
  putO {| hcm_cipher := c; hcm_key_1 := hcm_key_1 self; hcm_key_2 := hcm_key_2 self;
          hcm_fin_buff := hcm_fin_buff self; hcm_iter_buf := hcm_iter_buf self;
          hcm_prev_mac := hcm_prev_mac self; hcm_cur_mac := hcm_cur_mac self |}.

(** gost_34_13_2015.py 969-1012 [update].  The two last attributes may become the same buffer. *)
Definition hcm_update (data : arg) : MM unit :=
  match as_buf data with
  | Some data =>
      let! self := getO in
      let bs := hcm_block_size self in
      let! data := onheap (h_add (hcm_iter_buf self) data) in
      let! d := onheap (rd data) in
      let prev_block := hcm_cur_mac self in
      let! prev_block :=
        forM (py_range 0 (_get_num_block bs d - 1) 1) prev_block
          (fun i prev_block =>
             let! x := onheap (h_get_block bs data i) in
             let! x := onheap (h_add_xor prev_block x) in
             onheap (hc_encrypt (hcm_cipher self) x)) in
      if _get_pad_size bs d =? 0 then
        let! x := onheap (h_slice data (len d - bs) (len d)) in
        let! x := onheap (h_add_xor prev_block x) in
        let! block := onheap (hc_encrypt (hcm_cipher self) x) in
        let! iter_buf := onheap (alloc []) in
        let! fin_buff := onheap (h_from data (bs * (_get_num_block bs d - 1))) in
        putO {| hcm_cipher := hcm_cipher self; hcm_key_1 := hcm_key_1 self; hcm_key_2 := hcm_key_2 self;
                hcm_fin_buff := fin_buff; hcm_iter_buf := iter_buf;
                hcm_prev_mac := prev_block; hcm_cur_mac := block |}
      else
        let begin_data := len d - 2 * bs + _get_pad_size bs d in
        let end_data := len d - bs + _get_pad_size bs d in
        let! x := onheap (h_slice data begin_data end_data) in
        let! x := onheap (h_add_xor prev_block x) in
        let! block := onheap (hc_encrypt (hcm_cipher self) x) in
        let! iter_buf := onheap (h_from data (len d - bs + _get_pad_size bs d)) in
        let! fin_buff := onheap (h_from data (bs * (_get_num_block bs d - 1))) in
        putO {| hcm_cipher := hcm_cipher self; hcm_key_1 := hcm_key_1 self; hcm_key_2 := hcm_key_2 self;
                hcm_fin_buff := fin_buff; hcm_iter_buf := iter_buf;
                hcm_prev_mac := block; hcm_cur_mac := block |}
  | None => hcm_clear ;! raiseM (GOSTCipherError "GOSTCipherError: invalid text data")
  end.

(** gost_34_13_2015.py 1014-1025 [mac_final]. *)
Definition hcm_mac_final : MM buf :=
  let! self := getO in
  let bs := hcm_block_size self in
  let! f := onheap (rd (hcm_fin_buff self)) in
  let! (final_key, fin_buff) :=
    if _get_pad_size bs f =? 0 then retM (hcm_key_1 self, hcm_fin_buff self)
    else
      let! x := onheap (h_from (hcm_fin_buff self) bs) in
      let! x := onheap (h_set_pad_mode_3 bs x) in
      retM (hcm_key_2 self, x) in
  putO {| hcm_cipher := hcm_cipher self; hcm_key_1 := hcm_key_1 self; hcm_key_2 := hcm_key_2 self;
          hcm_fin_buff := fin_buff; hcm_iter_buf := hcm_iter_buf self;
          hcm_prev_mac := hcm_prev_mac self; hcm_cur_mac := hcm_cur_mac self |} ;!
  let! x := onheap (h_add_xor fin_buff (hcm_prev_mac self)) in
  let! x := onheap (h_add_xor x final_key) in
  onheap (hc_encrypt (hcm_cipher self) x).

(** [deepcopy] of the object: a new buffer for every bytearray (a buffer referred to twice is copied
    twice here, once in Python; no buffer of the copy is written). *)
Definition h_copy (v : buf) : M heap buf :=
  match v with Imm l => retM (Imm l) | Ref _ => h_bytearray v end.
Definition h_copy_all (vs : list buf) : M heap (list buf) :=
  forM vs [] (fun v ws => let! w := h_copy v in retM (ws ++ [w])).
Definition hc_copy (c : hcipher) : M heap hcipher :=
  match c with
  | HKuz k => let! k := h_copy_all k in retM (HKuz k)
  | HMagma k => let! k := h_copy_all k in retM (HMagma k)
  end.
Definition hcm_copy (s : hcm_obj) : M heap hcm_obj :=
  let! c := hc_copy (hcm_cipher s) in
  let! k1 := h_copy (hcm_key_1 s) in
  let! k2 := h_copy (hcm_key_2 s) in
  let! fb := h_copy (hcm_fin_buff s) in
  let! ib := h_copy (hcm_iter_buf s) in
  let! pm := h_copy (hcm_prev_mac s) in
  let! cm := h_copy (hcm_cur_mac s) in
  retM {| hcm_cipher := c; hcm_key_1 := k1; hcm_key_2 := k2; hcm_fin_buff := fb; hcm_iter_buf := ib; hcm_prev_mac := pm; hcm_cur_mac := cm |}.

(** A method of another object, which is dropped afterwards. *)
Definition on_temp {S T A} (t : T) (m : M (T * heap) A) : M (S * heap) A := fun '(s, h) =>
  let (r, th) := m (t, h) in (r, (s, snd th)).

(** gost_34_13_2015.py 1027-1050 [digest]. *)
Definition hcm_digest (mac_size : Z) : MM buf :=
  let! self := getO in
  let! temp := onheap (hcm_copy self) in
  if mac_size >? hcm_block_size temp then
    on_temp temp hcm_clear ;!
    raiseM (GOSTCipherError "GOSTCipherError: invalid message authentication code size")
  else
    let! r := on_temp temp hcm_mac_final in
    onheap (h_slice r 0 mac_size).

(** gost_34_13_2015.py 922-940 [GOST34132015mac.__init__]. *)
Definition hcm_init (algorithm : pyval) (key data : arg) : M heap hcm_obj :=
  let! c := h_base_init algorithm key in
  let! z := alloc (py_repeat 0 (hc_block_size c)) in
  let! value_r := hc_encrypt c z in
  let! (key_1, key_2) := h_get_mac_key (hc_block_size c) value_r in
  let! fin_buff := alloc [] in
  let! iter_buf := alloc [] in
  let! prev_mac := alloc (py_repeat 0 (hc_block_size c)) in
  let! cur_mac := alloc (py_repeat 0 (hc_block_size c)) in
  let self := {| hcm_cipher := c; hcm_key_1 := key_1; hcm_key_2 := key_2; hcm_fin_buff := fin_buff;
                 hcm_iter_buf := iter_buf; hcm_prev_mac := prev_mac; hcm_cur_mac := cur_mac |} in
  let! empty :=
    match as_buf data with
    | Some v => let! n := h_len v in retM (n =? 0)
    | None => retM false
    end in
  if (empty : bool) then retM self
  else fun h =>
    match hcm_update data (self, h) with
    | (Ok _, (self, h)) => (Ok self, h)
    | (Err e, (_, h)) => (Err e, h)
    end.

(** ** The function [new] *)
Record hkwargs : Type := {
  hkw_init_vect : option arg;
  hkw_data : option arg;
  hkw_pad_mode : option pyval
}.
Definition hkw_get {A} (v : option A) (dflt : A) : A := match v with Some v => v | None => dflt end.

Inductive hnew_obj : Type :=
| HNewMode (o : hobj)
| HNewMac (m : hcm_obj).

(** gost_34_13_2015.py 586-618 [GOST34132015cbc.__init__]. *)
Definition h_cbc_init (algorithm : pyval) (key init_vect : arg) (pad_mode : pyval) : M heap (hcipher * Z * buf) :=
  let! (_, p) := h_padding_init algorithm key pad_mode in
  let! (c, iv) := h_feedback_init algorithm key init_vect in
  retM (c, p, iv).

(** gost_34_13_2015.py 109-186 [new]. *)
Definition h_new (algorithm : pyval) (key : arg) (mode : pyval) (kw : hkwargs) : M heap hnew_obj :=
  let unsupported := let! _ := h_zero_arg key in raiseM (GOSTCipherError "GOSTCipherError: unsupported cipher mode") in
  match mode with
  | VInt mode =>
      if mode =? MODE_ECB then
        let pad_mode := hkw_get (hkw_pad_mode kw) (VInt PAD_MODE_1) in
        let! (c, p) := h_padding_init algorithm key pad_mode in
        retM (HNewMode {| h_class := ECB; h_cipher := c; h_pad_mode := p; h_init_vect := Imm []; h_counter := Imm [] |})
      else if mode =? MODE_CBC then
        let init_vect := hkw_get (hkw_init_vect kw) (ABuf a_IV_KUZNECHIK) in
        let init_vect := if is_magma algorithm then hkw_get (hkw_init_vect kw) (ABuf a_IV_CBC_MAGMA) else init_vect in
        let pad_mode := hkw_get (hkw_pad_mode kw) (VInt PAD_MODE_1) in
        let! (c, p, iv) := h_cbc_init algorithm key init_vect pad_mode in
        retM (HNewMode {| h_class := CBC; h_cipher := c; h_pad_mode := p; h_init_vect := iv; h_counter := Imm [] |})
      else if mode =? MODE_CFB then
        let init_vect := hkw_get (hkw_init_vect kw) (ABuf a_IV_KUZNECHIK) in
        let init_vect := if is_magma algorithm then hkw_get (hkw_init_vect kw) (ABuf a_IV_MAGMA) else init_vect in
        let! (c, iv) := h_feedback_init algorithm key init_vect in
        retM (HNewMode {| h_class := CFB; h_cipher := c; h_pad_mode := 0; h_init_vect := iv; h_counter := Imm [] |})
      else if mode =? MODE_OFB then
        let init_vect := hkw_get (hkw_init_vect kw) (ABuf a_IV_KUZNECHIK) in
        let init_vect := if is_magma algorithm then hkw_get (hkw_init_vect kw) (ABuf a_IV_MAGMA) else init_vect in
        let! (c, iv) := h_feedback_init algorithm key init_vect in
        retM (HNewMode {| h_class := OFB; h_cipher := c; h_pad_mode := 0; h_init_vect := iv; h_counter := Imm [] |})
      else if mode =? MODE_CTR then
        let init_vect := hkw_get (hkw_init_vect kw) (ABuf a_IV_CTR_KUZNECHIK) in
        let init_vect := if is_magma algorithm then hkw_get (hkw_init_vect kw) (ABuf a_IV_CTR_MAGMA) else init_vect in
        let! (c, iv, counter) := h_ctr_init algorithm key init_vect in
        retM (HNewMode {| h_class := CTR; h_cipher := c; h_pad_mode := 0; h_init_vect := iv; h_counter := counter |})
      else if mode =? MODE_MAC then
        let data := hkw_get (hkw_data kw) (AVal (VBytes [])) in
        let! m := hcm_init algorithm key data in
        retM (HNewMac m)
      else unsupported
  | _ => unsupported
  end.
