(** * Several threads with one HMAC object *)
From Verif Require Import PyBase PyState Utils Streebog Hmac Threads.
Open Scope string_scope.
Open Scope list_scope.
Open Scope Z_scope.

(** r_50_1_113_2016.py 147-167 [update], statement by statement: the counter is read once more for [elif]; a call of a
    method of the hash object is one action. *)
Definition count_call : M hmac_obj unit := let! self := getM in putM (hm_set_counter self (hm_counter self + 1)).
Definition calls_counted : M hmac_obj Z := let! self := getM in retM (hm_counter self).
Definition hash_keyed (data : bytes) : M hmac_obj unit := let! self := getM in on_hasher (hash_update (VBytes (add_xor (hm_key self) _I_PAD ++ data))).
Definition p_hmac_update (data : pyval) : proc hmac_obj unit :=
  match data with
  | VBytes data =>
      let& _ := act count_call in
      let& n := act calls_counted in
      if n =? 1 then act (hash_keyed data)
      else
        let& n := act calls_counted in
        if negb (n =? 1) then act (on_hasher (hash_update (VBytes data))) else Ret tt
  | _ => Exc (GOSTHMACError "GOSTHMACError: invalid data value")
  end.
(** r_50_1_113_2016.py 204-207 [reset]. *)
Definition p_hmac_reset : proc hmac_obj unit :=
  let& _ := act (on_hasher hash_reset) in
  act (let! self := getM in putM (hm_set_counter self 0)).
