(** * HMAC and PBKDF with the stored buffers as addresses

    The attributes that a program can also reach (the key of the HMAC object, the password and the
    salt of the PBKDF object) are buffers of a heap.  The hash object stays a value: its attributes
    are only ever assigned new buffers, and its arguments are only read.  Temporaries that no
    attribute and no variable of the program can denote are values. *)
From Verif Require Import PyBase PyState Utils Oid Streebog Hmac Pbkdf Heap HeapCipher CipherObj Modes Mac HeapModes.
Open Scope string_scope.
Open Scope list_scope.
Open Scope Z_scope.

(** r_50_1_113_2016.py 106-135: the attributes. *)
Record hh_obj : Type := {
  hh_key : buf;
  hh_hasher : hash_obj;
  hh_counter : Z;
  hh_oid : ObjectIdentifier
}.
Notation HH := (M (hh_obj * heap)).

Definition hh_set_key (self : hh_obj) (v : buf) : hh_obj :=
  {| hh_key := v; hh_hasher := hh_hasher self; hh_counter := hh_counter self; hh_oid := hh_oid self |}.
Definition hh_set_hasher (self : hh_obj) (v : hash_obj) : hh_obj :=
  {| hh_key := hh_key self; hh_hasher := v; hh_counter := hh_counter self; hh_oid := hh_oid self |}.
Definition hh_set_counter (self : hh_obj) (v : Z) : hh_obj :=
  {| hh_key := hh_key self; hh_hasher := hh_hasher self; hh_counter := v; hh_oid := hh_oid self |}.

(** A call of a method of [self._hasher_obj]. *)
Definition hh_on_hasher {A} (c : M hash_obj A) : HH A := fun '(self, h) =>
  let (r, x) := c (hh_hasher self) in (r, (hh_set_hasher self x, h)).

(** r_50_1_113_2016.py 147-167 [update]. *)
Definition hh_update (data : arg) : HH unit :=
  match as_buf data with
  | Some data =>
      let! self := getO in
      putO (hh_set_counter self (hh_counter self + 1)) ;!
      let! self := getO in
      if hh_counter self =? 1
      then
        let! key := onheap (rd (hh_key self)) in
        let! d := onheap (rd data) in
        hh_on_hasher (hash_update (VBytes (add_xor key _I_PAD ++ d)))
      else
        let! d := onheap (rd data) in
        hh_on_hasher (hash_update (VBytes d))
  | None => raiseM (GOSTHMACError "GOSTHMACError: invalid data value")
  end.

(** r_50_1_113_2016.py 169-182 [digest]. *)
Definition hh_digest : HH buf :=
  let! self := getO in
  let! fin_hasher_obj := liftM (hash_init (h_name (hh_hasher self)) (VBytes [])) in
  let! key := onheap (rd (hh_key self)) in
  let! inner := hh_on_hasher hash_digest in
  let (r, fin_hasher_obj) := hash_update (VBytes (add_xor key _O_PAD ++ inner)) fin_hasher_obj in
  let! _ := liftM r in
  let! d := liftM (fst (hash_digest fin_hasher_obj)) in
  onheap (alloc d).

(** r_50_1_113_2016.py 204-207 [reset]. *)
Definition hh_reset : HH unit :=
  hh_on_hasher hash_reset ;!
  let! self := getO in
  putO (hh_set_counter self 0).

(** r_50_1_113_2016.py 209-212 [clear]: the attribute is assigned another object. *)
Definition hh_clear : HH unit :=
  hh_on_hasher hash_reset ;!
  let! self := getO in
  let! key := onheap (h_zero_fill (hh_key self)) in
  putO (hh_set_key self key).

(** r_50_1_113_2016.py 120-125: a shorter key is copied, a key of 64 bytes is stored as it is. *)
Definition hh_store_key (key : buf) : M heap buf :=
  let! n := h_len key in
  if n <? _KEY_SIZE
  then let! k := h_add key (Imm (py_repeat 0 (_KEY_SIZE - n))) in h_bytearray k
  else retM key.

(** r_50_1_113_2016.py 106-135 [__init__]. *)
Definition hh_init (name : pyval) (key data : arg) : M heap hh_obj :=
  let is256 := match name with VStr name => String.eqb name "HMAC_GOSTR3411_2012_256" | _ => false end in
  let is512 := match name with VStr name => String.eqb name "HMAC_GOSTR3411_2012_512" | _ => false end in
  if negb (is256 || is512) then raiseM (GOSTHMACError "GOSTHMACError: unsupported mode")
  else
    match as_buf key with
    | Some key =>
        let! n := h_len key in
        if n >? _KEY_SIZE then raiseM (GOSTHMACError "GOSTHMACError: invalid key value")
        else
          let! k := hh_store_key key in
          let! (oid, hasher) := liftM
            (if is256
             then let* h := hash_init "streebog256" (VBytes []) in Ok ("1.2.643.7.1.1.4.1", h)
             else let* h := hash_init "streebog512" (VBytes []) in Ok ("1.2.643.7.1.1.4.2", h)) in
          let self := {| hh_key := k; hh_hasher := hasher; hh_counter := 0; hh_oid := oid |} in
          let! empty := (match as_buf data with Some d => let! l := rd d in retM (len l =? 0) | None => retM false end) in
          if empty then retM self
          else fun h => let '(r, (self, h)) := hh_update data (self, h) in
                        (match r with Ok _ => Ok self | Err e => Err e end, h)
    | None => raiseM (GOSTHMACError "GOSTHMACError: invalid key value")
    end.

(** r_50_1_113_2016.py 49-76 [new]. *)
Definition hh_new (name : pyval) (key : arg) (data : option arg) : M heap hh_obj :=
  hh_init name key (match data with Some data => data | None => AVal (VBytes []) end).

(** ** PBKDF *)

(** r_50_1_111_2016.py 65-91: the attributes. *)
Record hp_obj : Type := {
  hp_password : buf;
  hp_salt : buf;
  hp_iterations : pyval;
  hp_num_block : Z;
  hp_counter : Z;
  hp_hmac : hh_obj
}.
Notation HP := (M (hp_obj * heap)).

(** The object with the present contents of its buffers. *)
Definition hh_view (h : heap) (s : hh_obj) : option hmac_obj :=
  match content h (hh_key s) with
  | Some k => Some {| hm_key := k; hm_hasher := hh_hasher s; hm_counter := hh_counter s; hm_oid := hh_oid s |}
  | None => None
  end.
Definition hp_view (h : heap) (s : hp_obj) : option pbkdf_obj :=
  match content h (hp_password s), content h (hp_salt s), hh_view h (hp_hmac s) with
  | Some p, Some x, Some m =>
      Some {| p_password := p; p_salt := x; p_iterations := hp_iterations s; p_num_block := hp_num_block s; p_counter := hp_counter s; p_hmac := m |}
  | _, _, _ => None
  end.

(** r_50_1_111_2016.py 130-146 [derive].  The method reads the salt and the key, writes no buffer that
    existed before, and assigns only integers and attributes of the hash object: it is the method of
    Pbkdf.v on the present contents. *)
Definition hp_derive (dk_len : Z) : HP buf := fun '(s, h) =>
  match hp_view h s with
  | Some o =>
      let (r, o') := derive dk_len o in
      let s' := {| hp_password := hp_password s; hp_salt := hp_salt s; hp_iterations := hp_iterations s;
                   hp_num_block := p_num_block o'; hp_counter := p_counter o';
                   hp_hmac := hh_set_counter (hh_set_hasher (hp_hmac s) (hm_hasher (p_hmac o'))) (hm_counter (p_hmac o')) |} in
      match r with
      | Ok d => let (v, h') := alloc d h in (v, (s', h'))
      | Err e => (Err e, (s', h))
      end
  | None => (Err TypeError, (s, h))
  end.

(** r_50_1_111_2016.py 170-173 [salt]: the attribute itself. *)
Definition hp_get_salt (s : hp_obj) : buf := hp_salt s.

(** r_50_1_111_2016.py 65-91 [__init__]; copies of both arguments.  The assignments to the local name
    [password] (82, 91) are not observable. *)
Definition hp_init (urandom : bytes) (password salt : arg) (iterations : pyval) : M heap hp_obj :=
  match as_buf password with
  | Some password =>
      let! pw := h_bytearray password in
      match as_buf salt with
      | Some salt =>
          let! l := rd salt in
          let! salt := (if len l =? 0 then alloc urandom else retM salt) in
          let! salt := h_bytearray salt in
          let! m := hh_init (VStr "HMAC_GOSTR3411_2012_512") (arg_of pw) (AVal (VBytes [])) in
          retM {| hp_password := pw; hp_salt := salt; hp_iterations := iterations; hp_num_block := 0; hp_counter := 0; hp_hmac := m |}
      | None => raiseM (GOSTPBKDFError "GOSTPBKDFError: invalid salt value")
      end
  | None => raiseM (GOSTPBKDFError "GOSTPBKDFError: invalid password value")
  end.
Definition hp_new (urandom : bytes) (password : arg) (salt : option arg) (counter : option pyval) : M heap hp_obj :=
  hp_init urandom password
    (match salt with Some s => s | None => AVal (VBytes []) end)
    (match counter with Some c => c | None => VInt 1000 end).
