(** * Model of gostcrypto/gostpbkdf/r_50_1_111_2016.py *)
From Verif Require Import PyBase PyState Utils Streebog Hmac.
Open Scope string_scope.
Open Scope list_scope.
Open Scope Z_scope.

(** r_50_1_111_2016.py 24. *)
Definition _PBKDF_BLOCK_SIZE : Z := 64.

(** A PBKDF object: the attributes assigned in [__init__] (65-91). *)
Record pbkdf_obj : Type := {
  p_password : bytes;
  p_salt : bytes;
  p_iterations : pyval;
  p_num_block : Z;
  p_counter : Z;
  p_hmac : hmac_obj
}.

Definition p_set_password (self : pbkdf_obj) (v : bytes) : pbkdf_obj :=
  {| p_password := v; p_salt := p_salt self; p_iterations := p_iterations self; p_num_block := p_num_block self; p_counter := p_counter self; p_hmac := p_hmac self |}.
Definition p_set_num_block (self : pbkdf_obj) (v : Z) : pbkdf_obj :=
  {| p_password := p_password self; p_salt := p_salt self; p_iterations := p_iterations self; p_num_block := v; p_counter := p_counter self; p_hmac := p_hmac self |}.
Definition p_set_counter (self : pbkdf_obj) (v : Z) : pbkdf_obj :=
  {| p_password := p_password self; p_salt := p_salt self; p_iterations := p_iterations self; p_num_block := p_num_block self; p_counter := v; p_hmac := p_hmac self |}.
Definition p_set_hmac (self : pbkdf_obj) (v : hmac_obj) : pbkdf_obj :=
  {| p_password := p_password self; p_salt := p_salt self; p_iterations := p_iterations self; p_num_block := p_num_block self; p_counter := p_counter self; p_hmac := v |}.

(** A call of a method of [self._hmac_obj]. *)
Definition on_hmac {A} (c : M hmac_obj A) : M pbkdf_obj A := fun self =>
  let (r, h) := c (p_hmac self) in (r, p_set_hmac self h).

(** r_50_1_111_2016.py 102-105 [_u_first]. *)
Definition _u_first : M pbkdf_obj bytes :=
  on_hmac hmac_reset ;!
  let! self := getM in
  on_hmac (hmac_update (VBytes (p_salt self ++ int_to_bytearray (p_counter self) 4))) ;!
  on_hmac hmac_digest.

(** r_50_1_111_2016.py 107-110 [_u_iter]. *)
Definition _u_iter (u_prev : bytes) : M pbkdf_obj bytes :=
  on_hmac hmac_reset ;!
  on_hmac (hmac_update (VBytes u_prev)) ;!
  on_hmac hmac_digest.

(** [range(1, x)]: a [TypeError] unless [x] is an integer. *)
Definition range_1 (x : pyval) : res (list Z) :=
  match x with VInt z => Ok (py_range 1 z 1) | _ => Err TypeError end.

(** r_50_1_111_2016.py 112-118 [_f]. *)
Definition _f : M pbkdf_obj bytes :=
  let! t := _u_first in
  let! internal := _u_first in
  let! self := getM in
  let! rounds := liftM (range_1 (p_iterations self)) in
  let! (t, _) :=
    forM rounds (t, internal)
      (fun _ '(t, internal) =>
         let! internal := _u_iter internal in
         retM (add_xor t internal, internal)) in
  retM t.

(** r_50_1_111_2016.py 120-128 [_calculate_pbkdf]. *)
Definition _calculate_pbkdf (dk_len : Z) : M pbkdf_obj bytes :=
  let! self := getM in
  putM (p_set_num_block self (dk_len / _PBKDF_BLOCK_SIZE)) ;!
  (if negb (dk_len mod _PBKDF_BLOCK_SIZE =? 0)
   then let! self := getM in putM (p_set_num_block self (p_num_block self + 1))
   else retM tt) ;!
  let! self := getM in
  forM (py_range 1 (p_num_block self + 1) 1) []
    (fun i result =>
       (let! self := getM in putM (p_set_counter self i)) ;!
       let! t := _f in
       retM (result ++ t)).

(** r_50_1_111_2016.py 130-146 [derive]. *)
Definition derive (dk_len : Z) : M pbkdf_obj bytes :=
  if dk_len >? (2 ^ 32 - 1) * 64
  then raiseM (GOSTPBKDFError "GOSTPBKDFError: invalid size of the derived key")
  else let! r := _calculate_pbkdf dk_len in retM (py_upto r dk_len).

(** r_50_1_111_2016.py 148-164 [hexderive]. *)
Definition hexderive (dk_len : Z) : M pbkdf_obj string :=
  if dk_len >? (2 ^ 32 - 1) * 64
  then raiseM (GOSTPBKDFError "GOSTPBKDFError: invalid size of the derived key")
  else let! r := _calculate_pbkdf dk_len in retM (py_hex (py_upto r dk_len)).

(** r_50_1_111_2016.py 166-168 [clear]. *)
Definition pbkdf_clear : M pbkdf_obj unit :=
  let! self := getM in putM (p_set_password self (zero_fill (p_password self))).

(** r_50_1_111_2016.py 170-173 [salt]. *)
Definition salt (self : pbkdf_obj) : bytes := p_salt self.

(** r_50_1_111_2016.py 65-91 [__init__]; [urandom] is the value of [os.urandom(32)].  The assignments
    to the local name [password] (82, 91) are not observable. *)
Definition pbkdf_init (urandom : bytes) (password salt iterations : pyval) : res pbkdf_obj :=
  match password with
  | VBytes password =>
      let salt := match salt with VBytes [] => VBytes urandom | _ => salt end in
      match salt with
      | VBytes salt =>
          let* h := hmac_init (VStr "HMAC_GOSTR3411_2012_512") (VBytes password) (VBytes []) in
          Ok {| p_password := password; p_salt := salt; p_iterations := iterations; p_num_block := 0; p_counter := 0; p_hmac := h |}
      | _ => Err (GOSTPBKDFError "GOSTPBKDFError: invalid salt value")
      end
  | _ => Err (GOSTPBKDFError "GOSTPBKDFError: invalid password value")
  end.

(** r_50_1_111_2016.py 27-49 [new]; the last two arguments are [None] when the keyword is absent. *)
Definition pbkdf_new (urandom : bytes) (password : pyval) (salt counter : option pyval) : res pbkdf_obj :=
  pbkdf_init urandom password
    (match salt with Some s => s | None => VBytes [] end)
    (match counter with Some c => c | None => VInt 1000 end).
