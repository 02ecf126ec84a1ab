(** * Several threads with one MAC object *)
From Verif Require Import PyBase PyState Utils CipherObj Modes Mac Threads.
Open Scope string_scope.
Open Scope list_scope.
Open Scope Z_scope.

(** gost_34_13_2015.py 969-1012 [update], statement by statement; the block size, which never changes, is read
    once.  Both branches end with assignments to the same attributes in the same order. *)
Definition with_rest (data : bytes) : M mac_obj bytes := let! self := getM in retM (m_iter_buf self ++ data).
Definition current : M mac_obj bytes := let! self := getM in retM (m_cur_mac self).
Definition size_of_block : M mac_obj Z := let! self := getM in retM (mac_block_size self).
Definition encrypted (x : bytes) : M mac_obj bytes := let! self := getM in liftM (co_encrypt (m_cipher self) x).
Definition set_mac (self : mac_obj) (fin iter prev cur : bytes) : mac_obj :=
  {| m_cipher := m_cipher self; m_key_1 := m_key_1 self; m_key_2 := m_key_2 self; m_fin_buff := fin; m_iter_buf := iter; m_prev_mac := prev; m_cur_mac := cur |}.
Definition put_cur (v : bytes) : M mac_obj unit := let! self := getM in putM (set_mac self (m_fin_buff self) (m_iter_buf self) (m_prev_mac self) v).
Definition put_prev (v : bytes) : M mac_obj unit := let! self := getM in putM (set_mac self (m_fin_buff self) (m_iter_buf self) v (m_cur_mac self)).
Definition put_iter (v : bytes) : M mac_obj unit := let! self := getM in putM (set_mac self (m_fin_buff self) v (m_prev_mac self) (m_cur_mac self)).
Definition put_fin (v : bytes) : M mac_obj unit := let! self := getM in putM (set_mac self v (m_iter_buf self) (m_prev_mac self) (m_cur_mac self)).
(** Lines 986-1008 up to the assignments: the values to be assigned. *)
Definition p_chain (data : bytes) : proc mac_obj (bytes * bytes * bytes * bytes) :=
  let& data := act (with_rest data) in
  let& prev_block := act current in
  let& bs := act size_of_block in
  let& prev_block :=
    forP (py_range 0 (_get_num_block bs data - 1) 1) prev_block
      (fun i prev_block => act (encrypted (add_xor prev_block (_get_block bs data i)))) in
  let fin_buff := py_from data (bs * (_get_num_block bs data - 1)) in
  if _get_pad_size bs data =? 0 then
    let& block := act (encrypted (add_xor prev_block (py_slice data (len data - bs) (len data)))) in
    Ret (block, prev_block, [], fin_buff)
  else
    let begin_data := len data - 2 * bs + _get_pad_size bs data in
    let end_data := len data - bs + _get_pad_size bs data in
    let& block := act (encrypted (add_xor prev_block (py_slice data begin_data end_data))) in
    Ret (block, block, py_from data (len data - bs + _get_pad_size bs data), fin_buff).
(** Lines 998-1000, 1009-1012. *)
Definition p_store (v : bytes * bytes * bytes * bytes) : proc mac_obj unit :=
  let '(cur, prev, iter, fin) := v in
  let& _ := act (put_cur cur) in
  let& _ := act (put_prev prev) in
  let& _ := act (put_iter iter) in
  act (put_fin fin).
Definition p_mac_update (data : pyval) : proc mac_obj unit :=
  match data with
  | VBytes data => let& v := p_chain data in p_store v
  | _ => let& _ := act mac_clear in Exc (GOSTCipherError "GOSTCipherError: invalid text data")
  end.
(** gost_34_13_2015.py 1027-1050 [digest]: the copy is taken in one step; what follows does not use the object. *)
Definition p_mac_digest (mac_size : Z) : proc mac_obj bytes := act (mac_digest mac_size).

(** A thread that updates or asks for the MAC. *)
Inductive mac_thread := Upd (data : pyval) | Dig (mac_size : Z).
Definition p_mac (t : mac_thread) : proc mac_obj (option bytes) :=
  match t with
  | Upd data => let& _ := p_mac_update data in Ret None
  | Dig s => let& r := p_mac_digest s in Ret (Some r)
  end.
