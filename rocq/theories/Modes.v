(** * Model of the encryption modes (gostcrypto/gostcipher/gost_34_13_2015.py) *)
From Verif Require Import PyBase PyState Utils CipherObj Kuznechik Magma.
Open Scope string_scope.
Open Scope list_scope.
Open Scope Z_scope.

(** gost_34_13_2015.py 47-56: constants. *)
Definition MODE_ECB : Z := 0x01.
Definition MODE_CBC : Z := 0x02.
Definition MODE_CFB : Z := 0x03.
Definition MODE_OFB : Z := 0x05.
Definition MODE_CTR : Z := 0x06.
Definition MODE_MAC : Z := 0xff.
Definition PAD_MODE_1 : Z := 0x800000f0.
Definition PAD_MODE_2 : Z := 0x800000f1.
Definition _KEY_SIZE_13 : Z := 32.

(** gost_34_13_2015.py 58-82: default initialization vectors. *)
Definition _DEFAULT_IV_CTR_KUZNECHIK : bytes := [0x12; 0x34; 0x56; 0x78; 0x90; 0xab; 0xce; 0xf0].
Definition _DEFAULT_IV_CTR_MAGMA : bytes := [0x12; 0x34; 0x56; 0x78].
Definition _DEFAULT_IV_KUZNECHIK : bytes :=
  [0x12; 0x34; 0x56; 0x78; 0x90; 0xab; 0xce; 0xf0;
   0xa1; 0xb2; 0xc3; 0xd4; 0xe5; 0xf0; 0x01; 0x12;
   0x23; 0x34; 0x45; 0x56; 0x67; 0x78; 0x89; 0x90;
   0x12; 0x13; 0x14; 0x15; 0x16; 0x17; 0x18; 0x19].
Definition _DEFAULT_IV_MAGMA : bytes :=
  [0x12; 0x34; 0x56; 0x78; 0x90; 0xab; 0xcd; 0xef;
   0x23; 0x45; 0x67; 0x89; 0x0a; 0xbc; 0xde; 0xf1].
Definition _DEFAULT_IV_CBC_MAGMA : bytes :=
  [0x12; 0x34; 0x56; 0x78; 0x90; 0xab; 0xcd; 0xef;
   0x23; 0x45; 0x67; 0x89; 0x0a; 0xbc; 0xde; 0xf1;
   0x34; 0x56; 0x78; 0x90; 0xab; 0xcd; 0xef; 0x12].

(** The class of a mode object. *)
Inductive mode_class : Type := ECB | CBC | CFB | OFB | CTR.

(** A mode object.  One record serves the five classes; [o_pad_mode] is meaningful for ECB and
    CBC, [o_init_vect] for CBC, CFB, OFB (and CTR, where it is never read again), [o_counter]
    for CTR. *)
Record mode_obj : Type := {
  o_class : mode_class;
  o_cipher : cipher_obj;
  o_pad_mode : Z;
  o_init_vect : bytes;
  o_counter : bytes
}.

Definition set_cipher (o : mode_obj) (c : cipher_obj) : mode_obj :=
  {| o_class := o_class o; o_cipher := c; o_pad_mode := o_pad_mode o;
     o_init_vect := o_init_vect o; o_counter := o_counter o |}.
Definition set_iv (o : mode_obj) (iv : bytes) : mode_obj :=
  {| o_class := o_class o; o_cipher := o_cipher o; o_pad_mode := o_pad_mode o;
     o_init_vect := iv; o_counter := o_counter o |}.
Definition set_counter (o : mode_obj) (ctr : bytes) : mode_obj :=
  {| o_class := o_class o; o_cipher := o_cipher o; o_pad_mode := o_pad_mode o;
     o_init_vect := o_init_vect o; o_counter := ctr |}.

(** gost_34_13_2015.py 271-279 [block_size]. *)
Definition block_size (o : mode_obj) : Z := co_block_size (o_cipher o).

(** gost_34_13_2015.py 212-238 [GOST34132015.__init__]: the created [_cipher_obj]. *)
Definition base_init (algorithm key : pyval) : res cipher_obj :=
  let in_tuple :=
    match algorithm with
    | VStr a => String.eqb a "magma" || String.eqb a "kuznechik"
    | _ => false
    end in
  if negb in_tuple then Err (GOSTCipherError "GOSTCipherError: unsupported cipher algorithm")
  else if negb (check_value key _KEY_SIZE_13) then Err (GOSTCipherError "GOSTCipherError: invalid key value")
  else
    match algorithm, key with
    | VStr a, VBytes k =>
        if String.eqb a "kuznechik" then let* keys := kuz_new k in Ok (KuzObj keys)
        else let* keys := magma_new k in Ok (MagmaObj keys)
    | _, _ => Err TypeError
    end.

(** gost_34_13_2015.py 249-250 [_get_num_block]. *)
Definition _get_num_block (bs : Z) (data : bytes) : Z := len data / bs.

(** gost_34_13_2015.py 252-259 [_get_pad_size]. *)
Definition _get_pad_size (bs : Z) (data : bytes) : Z :=
  if len data <? bs then bs - len data
  else if len data mod bs =? 0 then 0
  else bs - len data mod bs.

(** gost_34_13_2015.py 261-264 [_get_block]. *)
Definition _get_block (bs : Z) (data : bytes) (count_block : Z) : bytes :=
  let begin_block := bs * count_block in
  let end_block := bs + bs * count_block in
  py_slice data begin_block end_block.

(** gost_34_13_2015.py 266-269 [clear]. *)
Definition clear : M mode_obj unit :=
  let! self := getM in
  let! c := liftM (co_clear (o_cipher self)) in
  putM (set_cipher self c).

(** gost_34_13_2015.py 301-319 [GOST34132015Cipher.encrypt]. *)
Definition check_plaintext (data : pyval) : M mode_obj bytes :=
  match data with
  | VBytes b => retM b
  | _ => clear ;! raiseM (GOSTCipherError "GOSTCipherError: invalid plaintext data")
  end.

(** gost_34_13_2015.py 321-339 [GOST34132015Cipher.decrypt]. *)
Definition check_ciphertext (data : pyval) : M mode_obj bytes :=
  match data with
  | VBytes b => retM b
  | _ => clear ;! raiseM (GOSTCipherError "GOSTCipherError: invalid ciphertext data")
  end.

(** gost_34_13_2015.py 361-375 [GOST34132015CipherPadding.__init__]; the mode as stored. *)
Definition padding_init (algorithm key pad_mode : pyval) : res (cipher_obj * Z) :=
  let* c := base_init algorithm key in
  match pad_mode with
  | VInt p =>
      if (p =? PAD_MODE_1) || (p =? PAD_MODE_2) then Ok (c, p)
      else Err (GOSTCipherError "GOSTCipherError: invalid padding mode")
  | _ => Err (GOSTCipherError "GOSTCipherError: invalid padding mode")
  end.

(** gost_34_13_2015.py 376-377 [_set_pad_mode_1]. *)
Definition _set_pad_mode_1 (bs : Z) (data : bytes) : bytes :=
  data ++ py_repeat 0x00 (_get_pad_size bs data).

(** gost_34_13_2015.py 379-380 [_set_pad_mode_2]. *)
Definition _set_pad_mode_2 (bs : Z) (data : bytes) : bytes :=
  data ++ [0x80] ++ py_repeat 0x00 (bs + _get_pad_size bs data - 1).

(** gost_34_13_2015.py 382-388 [_set_padding]. *)
Definition _set_padding (bs : Z) (data : bytes) (pad_mode : Z) : bytes :=
  if pad_mode =? PAD_MODE_1 then _set_pad_mode_1 bs data
  else if pad_mode =? PAD_MODE_2 then _set_pad_mode_2 bs data
  else data.

(** gost_34_13_2015.py 390-406 [GOST34132015CipherPadding.encrypt]. *)
Definition padding_encrypt (data : pyval) : M mode_obj bytes :=
  let! data := check_plaintext data in
  let! self := getM in
  retM (_set_padding (block_size self) data (o_pad_mode self)).

(** gost_34_13_2015.py 448-464 [GOST34132015CipherFeedBack.__init__]. *)
Definition feedback_init (algorithm key init_vect : pyval) : res (cipher_obj * bytes) :=
  let* c := base_init algorithm key in
  match init_vect with
  | VBytes iv =>
      if negb (len iv mod co_block_size c =? 0)
      then Err (GOSTCipherError "GOSTCipherError: invalid initialization vector value")
      else Ok (c, iv)
  | _ => Err (GOSTCipherError "GOSTCipherError: invalid initialization vector value")
  end.

(** gost_34_13_2015.py 465-466 [_get_gamma]. *)
Definition _get_gamma : M mode_obj bytes :=
  let! self := getM in
  liftM (co_encrypt (o_cipher self) (py_slice (o_init_vect self) 0 (block_size self))).

(** gost_34_13_2015.py 468-473 [_set_init_vect]. *)
Definition _set_init_vect (data : bytes) : M mode_obj unit :=
  let! self := getM in
  let bs := block_size self in
  let iv := o_init_vect self in
  let iter_iv_hi := py_slice iv bs (len iv) in
  let iv := py_slice_set iv 0 (len iv - bs) iter_iv_hi in
  let begin_iv_low := len iv - bs in
  let end_iv_low := len iv in
  let iv := py_slice_set iv begin_iv_low end_iv_low data in
  putM (set_iv self iv).

(** gost_34_13_2015.py 475-476 [_get_final_block]. *)
Definition _get_final_block (bs : Z) (data : bytes) : bytes :=
  py_from data (bs * _get_num_block bs data).

(** gost_34_13_2015.py 478-481 [_final_cipher]. *)
Definition _final_cipher (data : bytes) : M mode_obj bytes :=
  let! gamma := _get_gamma in
  let! self := getM in
  let cipher_block := _get_final_block (block_size self) data in
  retM (add_xor gamma cipher_block).

(** gost_34_13_2015.py 520-523 [iv]. *)
Definition iv (o : mode_obj) : bytes := py_from (o_init_vect o) (len (o_init_vect o) - block_size o).

(** gost_34_13_2015.py 545-563 [GOST34132015ecb.encrypt]. *)
Definition ecb_encrypt (data : pyval) : M mode_obj bytes :=
  let! data := padding_encrypt data in
  let! self := getM in
  forM (py_range 0 (_get_num_block (block_size self) data) 1) []
    (fun i result =>
       let! b := liftM (co_encrypt (o_cipher self) (_get_block (block_size self) data i)) in
       retM (result ++ b)).

(** gost_34_13_2015.py 565-583 [GOST34132015ecb.decrypt]. *)
Definition ecb_decrypt (data : pyval) : M mode_obj bytes :=
  let! data := check_ciphertext data in
  let! self := getM in
  forM (py_range 0 (_get_num_block (block_size self) data) 1) []
    (fun i result =>
       let! b := liftM (co_decrypt (o_cipher self) (_get_block (block_size self) data i)) in
       retM (result ++ b)).

(** gost_34_13_2015.py 620-641 [GOST34132015cbc.encrypt]. *)
Definition cbc_encrypt (data : pyval) : M mode_obj bytes :=
  let! data := padding_encrypt data in
  let! self := getM in
  let bs := block_size self in
  forM (py_range 0 (_get_num_block bs data) 1) []
    (fun i result =>
       let! self := getM in
       let internal := add_xor (py_slice (o_init_vect self) 0 bs) (_get_block bs data i) in
       let! cipher_block := liftM (co_encrypt (o_cipher self) internal) in
       let result := result ++ cipher_block in
       _set_init_vect (py_slice cipher_block 0 bs) ;!
       retM result).

(** gost_34_13_2015.py 643-664 [GOST34132015cbc.decrypt]. *)
Definition cbc_decrypt (data : pyval) : M mode_obj bytes :=
  let! data := check_ciphertext data in
  let! self := getM in
  let bs := block_size self in
  forM (py_range 0 (_get_num_block bs data) 1) []
    (fun i result =>
       let! self := getM in
       let! internal := liftM (co_decrypt (o_cipher self) (_get_block bs data i)) in
       let cipher_block := add_xor (py_slice (o_init_vect self) 0 bs) internal in
       let result := result ++ cipher_block in
       _set_init_vect (_get_block bs data i) ;!
       retM result).

(** gost_34_13_2015.py 686-710 [GOST34132015cfb.encrypt]. *)
Definition cfb_encrypt (data : pyval) : M mode_obj bytes :=
  let! data := check_plaintext data in
  let! self := getM in
  let bs := block_size self in
  let! result :=
    forM (py_range 0 (_get_num_block bs data) 1) []
      (fun i result =>
         let! gamma := _get_gamma in
         let cipher_block := add_xor gamma (_get_block bs data i) in
         let result := result ++ cipher_block in
         _set_init_vect (py_slice cipher_block 0 bs) ;!
         retM result) in
  if negb (len data mod bs =? 0) then
    let! f := _final_cipher data in
    retM (result ++ f)
  else retM result.

(** gost_34_13_2015.py 712-736 [GOST34132015cfb.decrypt]. *)
Definition cfb_decrypt (data : pyval) : M mode_obj bytes :=
  let! data := check_ciphertext data in
  let! self := getM in
  let bs := block_size self in
  let! result :=
    forM (py_range 0 (_get_num_block bs data) 1) []
      (fun i result =>
         let! gamma := _get_gamma in
         let cipher_block := _get_block bs data i in
         let result := result ++ add_xor gamma cipher_block in
         _set_init_vect cipher_block ;!
         retM result) in
  if negb (len data mod bs =? 0) then
    let! f := _final_cipher data in
    retM (result ++ f)
  else retM result.

(** gost_34_13_2015.py 758-782 [GOST34132015ofb.encrypt]. *)
Definition ofb_encrypt (data : pyval) : M mode_obj bytes :=
  let! data := check_plaintext data in
  let! self := getM in
  let bs := block_size self in
  let! result :=
    forM (py_range 0 (_get_num_block bs data) 1) []
      (fun i result =>
         let! gamma := _get_gamma in
         let cipher_block := _get_block bs data i in
         let result := result ++ add_xor gamma cipher_block in
         _set_init_vect (py_slice gamma 0 bs) ;!
         retM result) in
  if negb (len data mod bs =? 0) then
    let! f := _final_cipher data in
    retM (result ++ f)
  else retM result.

(** gost_34_13_2015.py 784-799 [GOST34132015ofb.decrypt]. *)
Definition ofb_decrypt (data : pyval) : M mode_obj bytes :=
  let! _ := check_ciphertext data in
  ofb_encrypt data.

(** gost_34_13_2015.py 821-839 [GOST34132015ctr.__init__]: cipher, [_init_vect], [_counter]. *)
Definition ctr_init (algorithm key init_vect : pyval) : res (cipher_obj * bytes * bytes) :=
  let* c := base_init algorithm key in
  match init_vect with
  | VBytes iv =>
      if negb (len iv =? co_block_size c / 2)
      then Err (GOSTCipherError "GOSTCipherError: invalid initialization vector value")
      else Ok (c, iv, iv ++ py_repeat 0x00 (co_block_size c / 2))
  | _ => Err (GOSTCipherError "GOSTCipherError: invalid initialization vector value")
  end.

(** gost_34_13_2015.py 841-848 [_inc_ctr]. *)
Definition _inc_ctr (bs : Z) (ctr : bytes) : res bytes :=
  let internal := 0 in
  let bit := py_repeat 0 bs in
  let* bit := py_set bit (bs - 1) 0x01 in
  let* (_, ctr) :=
    for_ (py_range 0 bs 1) (internal, ctr)
      (fun i '(internal, ctr) =>
         let* c := py_get ctr i in
         let* b := py_get bit i in
         let internal := c + b + Z.shiftl internal 8 in
         let* ctr := py_set ctr i (Z.land internal 0xff) in
         Ok (internal, ctr)) in
  Ok ctr.

(** The two statements [gamma = self._cipher_obj.encrypt(self._counter)] and
    [self._counter = self._inc_ctr(self._counter)] (873-874, 877-878). *)
Definition ctr_step : M mode_obj bytes :=
  let! self := getM in
  let! gamma := liftM (co_encrypt (o_cipher self) (o_counter self)) in
  let! ctr := liftM (_inc_ctr (block_size self) (o_counter self)) in
  putM (set_counter self ctr) ;!
  retM gamma.

(** gost_34_13_2015.py 855-882 [GOST34132015ctr.encrypt]. *)
Definition ctr_encrypt (data : pyval) : M mode_obj bytes :=
  let! data := check_plaintext data in
  let! self := getM in
  let bs := block_size self in
  let! result :=
    forM (py_range 0 (_get_num_block bs data) 1) []
      (fun i result =>
         let! gamma := ctr_step in
         retM (result ++ add_xor (_get_block bs data i) gamma)) in
  if negb (len data mod bs =? 0) then
    let! gamma := ctr_step in
    retM (result ++ add_xor (py_from data (bs * _get_num_block bs data)) gamma)
  else retM result.

(** gost_34_13_2015.py 884-899 [GOST34132015ctr.decrypt]. *)
Definition ctr_decrypt (data : pyval) : M mode_obj bytes :=
  let! data := check_ciphertext data in
  ctr_encrypt (VBytes data).

(** Dynamic dispatch of the two methods on the class of the object. *)
Definition encrypt (data : pyval) : M mode_obj bytes :=
  let! self := getM in
  match o_class self with
  | ECB => ecb_encrypt data
  | CBC => cbc_encrypt data
  | CFB => cfb_encrypt data
  | OFB => ofb_encrypt data
  | CTR => ctr_encrypt data
  end.

Definition decrypt (data : pyval) : M mode_obj bytes :=
  let! self := getM in
  match o_class self with
  | ECB => ecb_decrypt data
  | CBC => cbc_decrypt data
  | CFB => cfb_decrypt data
  | OFB => ofb_decrypt data
  | CTR => ctr_decrypt data
  end.
