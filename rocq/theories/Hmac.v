(** * Model of gostcrypto/gosthmac/r_50_1_113_2016.py *)
From Verif Require Import PyBase PyState Utils Oid Streebog.
Open Scope string_scope.
Open Scope list_scope.
Open Scope Z_scope.

(** r_50_1_113_2016.py 24-46. *)
Definition _KEY_SIZE : Z := 64.
Definition _I_PAD : bytes := [
  0x36; 0x36; 0x36; 0x36; 0x36; 0x36; 0x36; 0x36;
  0x36; 0x36; 0x36; 0x36; 0x36; 0x36; 0x36; 0x36;
  0x36; 0x36; 0x36; 0x36; 0x36; 0x36; 0x36; 0x36;
  0x36; 0x36; 0x36; 0x36; 0x36; 0x36; 0x36; 0x36;
  0x36; 0x36; 0x36; 0x36; 0x36; 0x36; 0x36; 0x36;
  0x36; 0x36; 0x36; 0x36; 0x36; 0x36; 0x36; 0x36;
  0x36; 0x36; 0x36; 0x36; 0x36; 0x36; 0x36; 0x36;
  0x36; 0x36; 0x36; 0x36; 0x36; 0x36; 0x36; 0x36].
Definition _O_PAD : bytes := [
  0x5c; 0x5c; 0x5c; 0x5c; 0x5c; 0x5c; 0x5c; 0x5c;
  0x5c; 0x5c; 0x5c; 0x5c; 0x5c; 0x5c; 0x5c; 0x5c;
  0x5c; 0x5c; 0x5c; 0x5c; 0x5c; 0x5c; 0x5c; 0x5c;
  0x5c; 0x5c; 0x5c; 0x5c; 0x5c; 0x5c; 0x5c; 0x5c;
  0x5c; 0x5c; 0x5c; 0x5c; 0x5c; 0x5c; 0x5c; 0x5c;
  0x5c; 0x5c; 0x5c; 0x5c; 0x5c; 0x5c; 0x5c; 0x5c;
  0x5c; 0x5c; 0x5c; 0x5c; 0x5c; 0x5c; 0x5c; 0x5c;
  0x5c; 0x5c; 0x5c; 0x5c; 0x5c; 0x5c; 0x5c; 0x5c].

(** An HMAC object: the attributes assigned in [__init__] (106-135). *)
Record hmac_obj : Type := {
  hm_key : bytes;
  hm_hasher : hash_obj;
  hm_counter : Z;
  hm_oid : ObjectIdentifier
}.

Definition hm_set_key (self : hmac_obj) (v : bytes) : hmac_obj :=
  {| hm_key := v; hm_hasher := hm_hasher self; hm_counter := hm_counter self; hm_oid := hm_oid self |}.
Definition hm_set_hasher (self : hmac_obj) (v : hash_obj) : hmac_obj :=
  {| hm_key := hm_key self; hm_hasher := v; hm_counter := hm_counter self; hm_oid := hm_oid self |}.
Definition hm_set_counter (self : hmac_obj) (v : Z) : hmac_obj :=
  {| hm_key := hm_key self; hm_hasher := hm_hasher self; hm_counter := v; hm_oid := hm_oid self |}.

(** A call of a method of [self._hasher_obj]. *)
Definition on_hasher {A} (c : M hash_obj A) : M hmac_obj A := fun self =>
  let (r, h) := c (hm_hasher self) in (r, hm_set_hasher self h).

(** r_50_1_113_2016.py 147-167 [update]. *)
Definition hmac_update (data : pyval) : M hmac_obj unit :=
  match data with
  | VBytes data =>
      let! self := getM in
      putM (hm_set_counter self (hm_counter self + 1)) ;!
      let! self := getM in
      if hm_counter self =? 1
      then on_hasher (hash_update (VBytes (add_xor (hm_key self) _I_PAD ++ data)))
      else on_hasher (hash_update (VBytes data))
  | _ => raiseM (GOSTHMACError "GOSTHMACError: invalid data value")
  end.

(** r_50_1_113_2016.py 169-182 [digest]; the reset of the local hasher is not observable. *)
Definition hmac_digest : M hmac_obj bytes :=
  let! self := getM in
  let! fin_hasher_obj := liftM (hash_init (h_name (hm_hasher self)) (VBytes [])) in
  let! inner := on_hasher hash_digest in
  let (r, fin_hasher_obj) := hash_update (VBytes (add_xor (hm_key self) _O_PAD ++ inner)) fin_hasher_obj in
  let! _ := liftM r in
  liftM (fst (hash_digest fin_hasher_obj)).

(** r_50_1_113_2016.py 184-193 [hexdigest]. *)
Definition hmac_hexdigest : M hmac_obj string :=
  let! d := hmac_digest in retM (py_hex d).

(** r_50_1_113_2016.py 204-207 [reset]. *)
Definition hmac_reset : M hmac_obj unit :=
  on_hasher hash_reset ;!
  let! self := getM in
  putM (hm_set_counter self 0).

(** r_50_1_113_2016.py 209-212 [clear]. *)
Definition hmac_clear : M hmac_obj unit :=
  on_hasher hash_reset ;!
  let! self := getM in
  putM (hm_set_key self (zero_fill (hm_key self))).

(** r_50_1_113_2016.py 214-245 [digest_size], [block_size], [name]. *)
Definition hmac_digest_size (self : hmac_obj) : Z := digest_size (hm_hasher self).
Definition hmac_block_size (self : hmac_obj) : Z := hash_block_size (hm_hasher self).
Definition hmac_name (self : hmac_obj) : string :=
  if String.eqb (h_name (hm_hasher self)) "streebog512"
  then "HMAC_GOSTR3411_2012_512" else "HMAC_GOSTR3411_2012_256".

(** r_50_1_113_2016.py 120-125: the stored key. *)
Definition store_key (key : bytes) : bytes :=
  if len key <? _KEY_SIZE then key ++ py_repeat 0 (_KEY_SIZE - len key) else key.

(** r_50_1_113_2016.py 106-135 [__init__].  [key = bytearray(len(key))] (126) rebinds the local name only. *)
Definition hmac_init (name key data : pyval) : res hmac_obj :=
  let is256 := match name with VStr name => String.eqb name "HMAC_GOSTR3411_2012_256" | _ => false end in
  let is512 := match name with VStr name => String.eqb name "HMAC_GOSTR3411_2012_512" | _ => false end in
  if negb (is256 || is512) then Err (GOSTHMACError "GOSTHMACError: unsupported mode")
  else
    match key with
    | VBytes key =>
        if len key >? _KEY_SIZE then Err (GOSTHMACError "GOSTHMACError: invalid key value")
        else
          let* (oid, hasher) :=
            (if is256
             then let* h := hash_init "streebog256" (VBytes []) in Ok ("1.2.643.7.1.1.4.1", h)
             else let* h := hash_init "streebog512" (VBytes []) in Ok ("1.2.643.7.1.1.4.2", h)) in
          let self := {| hm_key := store_key key; hm_hasher := hasher; hm_counter := 0; hm_oid := oid |} in
          match data with
          | VBytes [] => Ok self
          | _ => match hmac_update data self with
                 | (Ok _, self) => Ok self
                 | (Err e, _) => Err e
                 end
          end
    | _ => Err (GOSTHMACError "GOSTHMACError: invalid key value")
    end.

(** r_50_1_113_2016.py 49-76 [new]; [data] is [None] when the keyword is absent. *)
Definition hmac_new (name key : pyval) (data : option pyval) : res hmac_obj :=
  hmac_init name key (match data with Some data => data | None => VBytes [] end).
