(** * The steps of the derivation of a key.

    The methods of gostpbkdf/r_50_1_111_2016.py with the steps they go through, as in TraceHash.v; the
    functions return the value and the object as it is left. *)
From Verif Require Import PyBase PyState PyLoop Utils Streebog Hmac Pbkdf SpecTrace Trace TraceCipher TraceHash.
Open Scope string_scope.
Open Scope list_scope.
Open Scope Z_scope.

(** gost_34_11_2012.py 909-911 [reset] with [_hash_init] (757-766). *)
Definition t_hash_reset (self : hash_obj) : T hash_obj :=
  at_ Enter FHash 909 then
  at_ Enter FHash 757 then
  at_ Test FHash 765 (String.eqb (h_name self) "streebog256") then
  retT (_hash_init (h_name self) (h_oid self)).
(** r_50_1_113_2016.py 204-207 [reset]. *)
Definition t_hmac_reset (self : hmac_obj) : T hmac_obj :=
  at_ Enter FHmac 204 then
  do h := t_hash_reset (hm_hasher self) in
  retT (hm_set_counter (hm_set_hasher self h) 0).

(** r_50_1_111_2016.py 102-105 [_u_first]. *)
Definition t_u_first (self : pbkdf_obj) : T (bytes * pbkdf_obj) :=
  at_ Enter FPbkdf 102 then
  do h := t_hmac_reset (p_hmac self) in
  do c := t_int_to_bytearray (p_counter self) 4 in
  do h := t_hmac_update (p_salt self ++ c) h in
  do u := t_hmac_digest h in
  retT (u, p_set_hmac self h).
(** r_50_1_111_2016.py 107-110 [_u_iter]. *)
Definition t_u_iter (u_prev : bytes) (self : pbkdf_obj) : T (bytes * pbkdf_obj) :=
  at_ Enter FPbkdf 107 then
  do h := t_hmac_reset (p_hmac self) in
  do h := t_hmac_update u_prev h in
  do u := t_hmac_digest h in
  retT (u, p_set_hmac self h).
(** r_50_1_111_2016.py 112-118 [_f]. *)
Definition t_f_body (_ : Z) (s : bytes * bytes * pbkdf_obj) : T (bytes * bytes * pbkdf_obj) :=
  let '(t, internal, self) := s in
  do (internal, self) := t_u_iter internal self in
  do t := t_add_xor t internal in
  retT (t, internal, self).
Definition t_f (self : pbkdf_obj) : T (bytes * pbkdf_obj) :=
  at_ Enter FPbkdf 112 then
  do (t, self) := t_u_first self in
  do (internal, self) := t_u_first self in
  do rounds := t_res (range_1 (p_iterations self)) in
  do (t, _, self) := t_for FPbkdf 115 rounds (t, internal, self) t_f_body in
  retT (t, self).
(** r_50_1_111_2016.py 120-128 [_calculate_pbkdf]. *)
Definition t_calculate_body (i : Z) (s : bytes * pbkdf_obj) : T (bytes * pbkdf_obj) :=
  let '(result, self) := s in
  do (t, self) := t_f (p_set_counter self i) in
  retT (result ++ t, self).
Definition t_calculate_pbkdf (dk_len : Z) (self : pbkdf_obj) : T (bytes * pbkdf_obj) :=
  at_ Enter FPbkdf 120 then
  let self := p_set_num_block self (dk_len / _PBKDF_BLOCK_SIZE) in
  do self := if_ FPbkdf 123 (negb (dk_len mod _PBKDF_BLOCK_SIZE =? 0))
    (retT (p_set_num_block self (p_num_block self + 1)))
    (retT self) in
  t_for FPbkdf 125 (py_range 1 (p_num_block self + 1) 1) ([], self) t_calculate_body.
(** r_50_1_111_2016.py 130-146 [derive]. *)
Definition t_derive (dk_len : Z) (self : pbkdf_obj) : T (bytes * pbkdf_obj) :=
  at_ Enter FPbkdf 130 then
  if_ FPbkdf 144 (dk_len >? (2 ^ 32 - 1) * 64)
    (stopT (Raises (GOSTPBKDFError "GOSTPBKDFError: invalid size of the derived key")))
    (do (r, self) := t_calculate_pbkdf dk_len self in
     retT (py_upto r dk_len, self)).
