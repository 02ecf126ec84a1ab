(** * Threads that ask for the value of an HMAC object while another one updates it *)
From Verif Require Import PyBase PyState Utils Streebog Hmac Threads ThreadsHash ThreadsHmac.
Open Scope string_scope.
Open Scope list_scope.
Open Scope Z_scope.

(** A call of the hash object in the HMAC object, statement by statement. *)
Fixpoint within {A} (p : proc hash_obj A) : proc hmac_obj A :=
  match p with
  | Ret a => Ret a
  | Exc e => Exc e
  | Act k => Act (fun self => let (h, p') := k (hm_hasher self) in (hm_set_hasher self h, within p'))
  end.
(** r_50_1_113_2016.py 147-167 [update]: as [p_hmac_update], but the calls of the hash object are no longer one action. *)
Definition stored_key : M hmac_obj bytes := let! self := getM in retM (hm_key self).
Definition p_hmac_blocks (data : pyval) : proc hmac_obj unit :=
  match data with
  | VBytes data =>
      let& _ := act count_call in
      let& n := act calls_counted in
      if n =? 1 then let& key := act stored_key in within (p_update (VBytes (add_xor key _I_PAD ++ data)))
      else
        let& n := act calls_counted in
        if negb (n =? 1) then within (p_update (VBytes data)) else Ret tt
  | _ => Exc (GOSTHMACError "GOSTHMACError: invalid data value")
  end.
(** r_50_1_113_2016.py 169-182 [digest]: the hash object in the HMAC object is copied in one step; the key does not change. *)
Definition p_hmac_digest : proc hmac_obj bytes := act hmac_digest.

(** A thread that updates or asks for the value. *)
Inductive hmac_thread := MUpd (data : pyval) | MDig.
Definition p_hmac (t : hmac_thread) : proc hmac_obj (option bytes) :=
  match t with
  | MUpd data => let& _ := p_hmac_blocks data in Ret None
  | MDig => let& r := p_hmac_digest in Ret (Some r)
  end.
