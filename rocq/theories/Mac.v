(** * Model of the MAC mode and of the function [new] (gostcrypto/gostcipher/gost_34_13_2015.py) *)
From Verif Require Import PyBase PyState Utils CipherObj Modes.
Open Scope string_scope.
Open Scope list_scope.
Open Scope Z_scope.

(** gost_34_13_2015.py 84-92. *)
Definition _B_64 : bytes := [0; 0; 0; 0; 0; 0; 0; 0x1b].
Definition _B_128 : bytes := [0; 0; 0; 0; 0; 0; 0; 0; 0; 0; 0; 0; 0; 0; 0; 0x87].

(** A MAC object. *)
Record mac_obj : Type := {
  m_cipher : cipher_obj;
  m_key_1 : bytes;
  m_key_2 : bytes;
  m_fin_buff : bytes;
  m_iter_buf : bytes;
  m_prev_mac : bytes;
  m_cur_mac : bytes
}.

Definition mac_block_size (m : mac_obj) : Z := co_block_size (m_cipher m).

(** gost_34_13_2015.py 942-947 [_set_pad_mode_3]. *)
Definition _set_pad_mode_3 (bs : Z) (data : bytes) : bytes :=
  if _get_pad_size bs data =? 0 then data
  else data ++ [0x80] ++ py_repeat 0x00 (_get_pad_size bs data - 1).

(** gost_34_13_2015.py 955-960 and 961-966: one of the two doublings. *)
Definition mac_double (bs : Z) (value_b value : bytes) : res bytes :=
  let* m := msb value in
  if m =? 0 then
    let int_value := Z.shiftl (bytearray_to_int value) 1 in
    Ok (int_to_bytearray int_value bs)
  else
    let int_value := Z.shiftl (bytearray_to_int value) 1 in
    Ok (add_xor (int_to_bytearray int_value bs) value_b).

(** gost_34_13_2015.py 949-967 [_get_mac_key]. *)
Definition _get_mac_key (bs : Z) (value_r : bytes) : res (bytes * bytes) :=
  let value_b := if bs =? 16 then _B_128 else if bs =? 8 then _B_64 else [] in
  let* key_1 := mac_double bs value_b value_r in
  let* key_2 := mac_double bs value_b key_1 in
  Ok (key_1, key_2).

(** gost_34_13_2015.py 266-269 [clear] on a MAC object. *)
Definition mac_clear : M mac_obj unit :=
  let! self := getM in
  let! c := liftM (co_clear (m_cipher self)) in
  putM {| m_cipher := c; m_key_1 := m_key_1 self; m_key_2 := m_key_2 self;
          m_fin_buff := m_fin_buff self; m_iter_buf := m_iter_buf self;
          m_prev_mac := m_prev_mac self; m_cur_mac := m_cur_mac self |}.

(** gost_34_13_2015.py 969-1012 [update].  In each branch the assignments follow the last
    call that can raise, so an exception leaves the object unchanged. *)
Definition mac_update (data : pyval) : M mac_obj unit :=
  match data with
  | VBytes data =>
      let! self := getM in
      let bs := mac_block_size self in
      let data := m_iter_buf self ++ data in
      let prev_block := m_cur_mac self in
      let! prev_block :=
        forM (py_range 0 (_get_num_block bs data - 1) 1) prev_block
          (fun i prev_block =>
             liftM (co_encrypt (m_cipher self) (add_xor prev_block (_get_block bs data i)))) in
      let fin_buff := py_from data (bs * (_get_num_block bs data - 1)) in
      if _get_pad_size bs data =? 0 then
        let! block := liftM (co_encrypt (m_cipher self)
                               (add_xor prev_block (py_slice data (len data - bs) (len data)))) in
        putM {| m_cipher := m_cipher self; m_key_1 := m_key_1 self; m_key_2 := m_key_2 self;
                m_fin_buff := fin_buff; m_iter_buf := [];
                m_prev_mac := prev_block; m_cur_mac := block |}
      else
        let begin_data := len data - 2 * bs + _get_pad_size bs data in
        let end_data := len data - bs + _get_pad_size bs data in
        let! block := liftM (co_encrypt (m_cipher self)
                               (add_xor prev_block (py_slice data begin_data end_data))) in
        putM {| m_cipher := m_cipher self; m_key_1 := m_key_1 self; m_key_2 := m_key_2 self;
                m_fin_buff := fin_buff;
                m_iter_buf := py_from data (len data - bs + _get_pad_size bs data);
                m_prev_mac := block; m_cur_mac := block |}
  | _ => mac_clear ;! raiseM (GOSTCipherError "GOSTCipherError: invalid text data")
  end.

(** gost_34_13_2015.py 1014-1025 [mac_final]. *)
Definition mac_final : M mac_obj bytes :=
  let! self := getM in
  let bs := mac_block_size self in
  let (final_key, fin_buff) :=
    if _get_pad_size bs (m_fin_buff self) =? 0 then (m_key_1 self, m_fin_buff self)
    else (m_key_2 self, _set_pad_mode_3 bs (py_from (m_fin_buff self) bs)) in
  putM {| m_cipher := m_cipher self; m_key_1 := m_key_1 self; m_key_2 := m_key_2 self;
          m_fin_buff := fin_buff; m_iter_buf := m_iter_buf self;
          m_prev_mac := m_prev_mac self; m_cur_mac := m_cur_mac self |} ;!
  liftM (co_encrypt (m_cipher self) (add_xor (add_xor fin_buff (m_prev_mac self)) final_key)).

(** gost_34_13_2015.py 1027-1050 [digest]: works on a deep copy, which is discarded. *)
Definition mac_digest (mac_size : Z) : M mac_obj bytes := fun self =>
  let temp := self in
  if mac_size >? mac_block_size temp then
    let _ := mac_clear temp in
    (Err (GOSTCipherError "GOSTCipherError: invalid message authentication code size"), self)
  else
    let (r, temp) := mac_final temp in
    (let* r := r in Ok (py_slice r 0 mac_size), self).

(** gost_34_13_2015.py 923-940 [GOST34132015mac.__init__]. *)
Definition mac_init (algorithm key data : pyval) : res mac_obj :=
  let* c := base_init algorithm key in
  let* value_r := co_encrypt c (py_repeat 0 (co_block_size c)) in
  let* (key_1, key_2) := _get_mac_key (co_block_size c) value_r in
  let self := {| m_cipher := c; m_key_1 := key_1; m_key_2 := key_2;
                 m_fin_buff := []; m_iter_buf := [];
                 m_prev_mac := py_repeat 0 (co_block_size c);
                 m_cur_mac := py_repeat 0 (co_block_size c) |} in
  match data with
  | VBytes [] => Ok self
  | _ => match mac_update data self with
         | (Ok _, self) => Ok self
         | (Err e, _) => Err e
         end
  end.

(** The keyword arguments of [new] that are looked at; [None] when absent. *)
Record kwargs : Type := {
  kw_init_vect : option pyval;
  kw_data : option pyval;
  kw_pad_mode : option pyval
}.

Definition kw_get (v : option pyval) (dflt : pyval) : pyval :=
  match v with Some v => v | None => dflt end.

(** What [new] returns. *)
Inductive new_obj : Type :=
| NewMode (o : mode_obj)
| NewMac (m : mac_obj).

Definition is_magma (algorithm : pyval) : bool :=
  match algorithm with VStr a => String.eqb a "magma" | _ => false end.

(** gost_34_13_2015.py 586-618 [GOST34132015cbc.__init__]: both base initialisers run. *)
Definition cbc_init (algorithm key init_vect pad_mode : pyval) : res (cipher_obj * Z * bytes) :=
  let* (_, p) := padding_init algorithm key pad_mode in
  let* (c, iv) := feedback_init algorithm key init_vect in
  Ok (c, p, iv).

(** gost_34_13_2015.py 109-186 [new]. *)
Definition new (algorithm key mode : pyval) (kw : kwargs) : res new_obj :=
  let unsupported := Err (GOSTCipherError "GOSTCipherError: unsupported cipher mode") in
  match mode with
  | VInt mode =>
      if mode =? MODE_ECB then
        let pad_mode := kw_get (kw_pad_mode kw) (VInt PAD_MODE_1) in
        let* (c, p) := padding_init algorithm key pad_mode in
        Ok (NewMode {| o_class := ECB; o_cipher := c; o_pad_mode := p; o_init_vect := []; o_counter := [] |})
      else if mode =? MODE_CBC then
        let init_vect := kw_get (kw_init_vect kw) (VBytes _DEFAULT_IV_KUZNECHIK) in
        let init_vect :=
          if is_magma algorithm then kw_get (kw_init_vect kw) (VBytes _DEFAULT_IV_CBC_MAGMA) else init_vect in
        let pad_mode := kw_get (kw_pad_mode kw) (VInt PAD_MODE_1) in
        let* (c, p, iv) := cbc_init algorithm key init_vect pad_mode in
        Ok (NewMode {| o_class := CBC; o_cipher := c; o_pad_mode := p; o_init_vect := iv; o_counter := [] |})
      else if mode =? MODE_CFB then
        let init_vect := kw_get (kw_init_vect kw) (VBytes _DEFAULT_IV_KUZNECHIK) in
        let init_vect :=
          if is_magma algorithm then kw_get (kw_init_vect kw) (VBytes _DEFAULT_IV_MAGMA) else init_vect in
        let* (c, iv) := feedback_init algorithm key init_vect in
        Ok (NewMode {| o_class := CFB; o_cipher := c; o_pad_mode := 0; o_init_vect := iv; o_counter := [] |})
      else if mode =? MODE_OFB then
        let init_vect := kw_get (kw_init_vect kw) (VBytes _DEFAULT_IV_KUZNECHIK) in
        let init_vect :=
          if is_magma algorithm then kw_get (kw_init_vect kw) (VBytes _DEFAULT_IV_MAGMA) else init_vect in
        let* (c, iv) := feedback_init algorithm key init_vect in
        Ok (NewMode {| o_class := OFB; o_cipher := c; o_pad_mode := 0; o_init_vect := iv; o_counter := [] |})
      else if mode =? MODE_CTR then
        let init_vect := kw_get (kw_init_vect kw) (VBytes _DEFAULT_IV_CTR_KUZNECHIK) in
        let init_vect :=
          if is_magma algorithm then kw_get (kw_init_vect kw) (VBytes _DEFAULT_IV_CTR_MAGMA) else init_vect in
        let* (c, iv, counter) := ctr_init algorithm key init_vect in
        Ok (NewMode {| o_class := CTR; o_cipher := c; o_pad_mode := 0; o_init_vect := iv; o_counter := counter |})
      else if mode =? MODE_MAC then
        let data := kw_get (kw_data kw) (VBytes []) in
        let* m := mac_init algorithm key data in
        Ok (NewMac m)
      else unsupported
  | _ => unsupported
  end.
