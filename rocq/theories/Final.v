(** * Finalisers, and the objects that are left when an initialiser raises

    [__del__] is called when an object is given up, also when its [__init__] did not complete.  So the
    initialisers are modelled here once more, with the attributes that exist when they end, normally or
    not; and every call of a finaliser is recorded with its outcome.  (An exception raised by a finaliser
    does not reach the program: the interpreter writes it to the standard error output.) *)
From Verif Require Import PyBase PyState Utils Kuznechik Magma CipherObj Modes Mac Streebog Hmac Pbkdf Random.
Open Scope string_scope.
Open Scope list_scope.
Open Scope Z_scope.

(** The outcome of a finaliser. *)
Inductive outcome : Type :=
| Done
| Raised (e : exn)
| NoAttribute (name : string).
Definition outcome_of {A} (r : res A) : outcome := match r with Ok _ => Done | Err e => Raised e end.

(** ** The block ciphers *)

(** [self._cipher_iter_key.append(k)]; the state is the attribute [_cipher_iter_key]. *)
Definition append_key (k : bytes) : M (list bytes) unit := fun keys => (Ok tt, keys ++ [k]).

(** gost_34_12_2015.py 426-445 [GOST34122015Kuznechik.__init__]. *)
Definition kuz_attrs (key : bytes) : M (list bytes) unit :=
  putM [] ;!
  let! cipher_c := liftM _cipher_get_c in
  let key_1 := py_upto key (Kuznechik._KEY_SIZE / 2) in
  let key_2 := py_from key (Kuznechik._KEY_SIZE / 2) in
  append_key key_1 ;!
  append_key key_2 ;!
  let! _ :=
    forM (py_range 0 4 1) (key_1, key_2)
      (fun i '(key_1, key_2) =>
         let! (key_1, key_2) :=
           liftM (for_ (py_range 0 8 1) (key_1, key_2)
             (fun j '(key_1, key_2) =>
                let* c := py_get cipher_c (i * 8 + j) in
                let* internal := _cipher_s (add_xor key_1 c) in
                let* internal := _cipher_l internal in
                Ok (add_xor internal key_2, key_1))) in
         append_key key_1 ;!
         append_key key_2 ;!
         retM (key_1, key_2)) in
  retM tt.

(** gost_34_12_2015.py 623-640 [_expand_iter_key], [_expand_iter_key_final]: [at_ j i] is the position in the key. *)
Definition expand_attrs (at_ : Z -> Z -> Z) (key : bytes) : M (list bytes) unit :=
  forM (py_range 0 8 1) tt
    (fun j _ =>
       let! iter_key :=
         liftM (for_ (py_range 0 4 1) (py_repeat 0 4)
           (fun i iter_key =>
              let* k := py_get key (at_ j i) in
              py_set iter_key i k)) in
       append_key iter_key).

(** gost_34_12_2015.py 606-612 [GOST34122015Magma.__init__]. *)
Definition magma_attrs (key : bytes) : M (list bytes) unit :=
  putM [] ;!
  expand_attrs (fun j i => j * 4 + i) key ;!
  expand_attrs (fun j i => j * 4 + i) key ;!
  expand_attrs (fun j i => j * 4 + i) key ;!
  expand_attrs (fun j i => 28 - j * 4 + i) key.

(** gost_34_12_2015.py 447-454 and 614-621 [__del__]. *)
Definition co_del (c : cipher_obj) : outcome := outcome_of (co_clear c).

(** ** Mode and MAC objects: the attribute [_cipher_obj], if it exists, and the finalisers called so far *)
Record life : Type := { l_cipher : option cipher_obj; l_calls : list outcome }.
Definition record (x : outcome) : M life unit := fun l =>
  (Ok tt, {| l_cipher := l_cipher l; l_calls := l_calls l ++ [x] |}).

(** [self._cipher_obj = c]: an earlier value is given up. *)
Definition set_cipher_obj (c : cipher_obj) : M life unit := fun l =>
  (Ok tt, {| l_cipher := Some c; l_calls := l_calls l ++ match l_cipher l with Some old => [co_del old] | None => [] end |}).

(** The call of the constructor of a block cipher: an object whose initialiser raised is given up. *)
Definition make_cipher (back : list bytes -> cipher_obj) (attrs : M (list bytes) unit) : M life unit :=
  let (r, keys) := attrs [] in
  match r with
  | Ok _ => set_cipher_obj (back keys)
  | Err e => record (co_del (back keys)) ;! raiseM e
  end.

(** gost_34_13_2015.py 266-269 [clear], with [hasattr]. *)
Definition clear_attrs : M life unit :=
  let! l := getM in
  match l_cipher l with
  | Some c =>
      let! c := liftM (co_clear c) in
      putM {| l_cipher := Some c; l_calls := l_calls l |}
  | None => retM tt
  end.

(** gost_34_13_2015.py 212-238 [GOST34132015.__init__]. *)
Definition base_attrs (algorithm key : pyval) : M life unit :=
  let in_tuple :=
    match algorithm with
    | VStr a => String.eqb a "magma" || String.eqb a "kuznechik"
    | _ => false
    end in
  if negb in_tuple then raiseM (GOSTCipherError "GOSTCipherError: unsupported cipher algorithm")
  else if negb (check_value key _KEY_SIZE_13) then raiseM (GOSTCipherError "GOSTCipherError: invalid key value")
  else
    match algorithm, key with
    | VStr a, VBytes k =>
        if String.eqb a "kuznechik" then make_cipher KuzObj (kuz_attrs k)
        else make_cipher MagmaObj (magma_attrs k)
    | _, _ => raiseM TypeError
    end.

(** gost_34_13_2015.py 361-375 [GOST34132015CipherPadding.__init__]. *)
Definition padding_attrs (algorithm key pad_mode : pyval) : M life unit :=
  base_attrs algorithm key ;!
  match pad_mode with
  | VInt p =>
      if (p =? PAD_MODE_1) || (p =? PAD_MODE_2) then retM tt
      else clear_attrs ;! raiseM (GOSTCipherError "GOSTCipherError: invalid padding mode")
  | _ => clear_attrs ;! raiseM (GOSTCipherError "GOSTCipherError: invalid padding mode")
  end.

(** [self.block_size] (271-279): there is always a cipher object when it is asked for. *)
Definition size_attr : M life Z :=
  let! l := getM in
  match l_cipher l with Some c => retM (co_block_size c) | None => raiseM TypeError end.

(** gost_34_13_2015.py 448-464 [GOST34132015CipherFeedBack.__init__]; [good] is the condition on the length. *)
Definition vector_attrs (good : Z -> Z -> bool) (algorithm key init_vect : pyval) : M life unit :=
  base_attrs algorithm key ;!
  let! bs := size_attr in
  match init_vect with
  | VBytes iv =>
      if negb (good (len iv) bs)
      then clear_attrs ;! raiseM (GOSTCipherError "GOSTCipherError: invalid initialization vector value")
      else retM tt
  | _ => clear_attrs ;! raiseM (GOSTCipherError "GOSTCipherError: invalid initialization vector value")
  end.
Definition feedback_attrs : pyval -> pyval -> pyval -> M life unit := vector_attrs (fun n bs => n mod bs =? 0).
(** gost_34_13_2015.py 821-839 [GOST34132015ctr.__init__]. *)
Definition ctr_attrs : pyval -> pyval -> pyval -> M life unit := vector_attrs (fun n bs => n =? bs / 2).
(** gost_34_13_2015.py 586-618 [GOST34132015cbc.__init__]. *)
Definition cbc_attrs (algorithm key init_vect pad_mode : pyval) : M life unit :=
  padding_attrs algorithm key pad_mode ;!
  feedback_attrs algorithm key init_vect.

(** gost_34_13_2015.py 922-940 [GOST34132015mac.__init__]; [update] as in Mac.v. *)
Definition mac_attrs (algorithm key data : pyval) : M life unit :=
  base_attrs algorithm key ;!
  let! l := getM in
  match l_cipher l with
  | Some c =>
      let! value_r := liftM (co_encrypt c (py_repeat 0 (co_block_size c))) in
      let! (key_1, key_2) := liftM (_get_mac_key (co_block_size c) value_r) in
      let self := {| m_cipher := c; m_key_1 := key_1; m_key_2 := key_2;
                     m_fin_buff := []; m_iter_buf := [];
                     m_prev_mac := py_repeat 0 (co_block_size c);
                     m_cur_mac := py_repeat 0 (co_block_size c) |} in
      match data with
      | VBytes [] => retM tt
      | _ =>
          let (r, self) := mac_update data self in
          putM {| l_cipher := Some (m_cipher self); l_calls := l_calls l |} ;!
          liftM r
      end
  | None => raiseM TypeError
  end.

(** gost_34_13_2015.py 240-247 [__del__]; then the attributes are given up, and with them the cipher object. *)
Definition give_up : M life unit :=
  let! l := getM in
  match clear_attrs l with
  | (Ok _, l') => putM l' ;! record Done
  | (Err e, l') => putM l' ;! record (Raised e)
  end ;!
  let! l := getM in
  match l_cipher l with Some c => record (co_del c) | None => retM tt end.

(** The initialiser called by [new] (109-186); [None] for an unsupported mode. *)
Definition init_attrs (algorithm key mode : pyval) (kw : kwargs) : option (M life unit) :=
  let pad_mode := kw_get (kw_pad_mode kw) (VInt PAD_MODE_1) in
  let init_vect k m := kw_get (kw_init_vect kw) (VBytes (if is_magma algorithm then m else k)) in
  match mode with
  | VInt mode =>
      if mode =? MODE_ECB then Some (padding_attrs algorithm key pad_mode)
      else if mode =? MODE_CBC then Some (cbc_attrs algorithm key (init_vect _DEFAULT_IV_KUZNECHIK _DEFAULT_IV_CBC_MAGMA) pad_mode)
      else if mode =? MODE_CFB then Some (feedback_attrs algorithm key (init_vect _DEFAULT_IV_KUZNECHIK _DEFAULT_IV_MAGMA))
      else if mode =? MODE_OFB then Some (feedback_attrs algorithm key (init_vect _DEFAULT_IV_KUZNECHIK _DEFAULT_IV_MAGMA))
      else if mode =? MODE_CTR then Some (ctr_attrs algorithm key (init_vect _DEFAULT_IV_CTR_KUZNECHIK _DEFAULT_IV_CTR_MAGMA))
      else if mode =? MODE_MAC then Some (mac_attrs algorithm key (kw_get (kw_data kw) (VBytes [])))
      else None
  | _ => None
  end.

(** gost_34_13_2015.py 109-186 [new]: the exception, if any; the cipher object of the object returned; the
    finalisers called before [new] ends. *)
Definition new_life (algorithm key mode : pyval) (kw : kwargs) : res unit * life :=
  match init_attrs algorithm key mode kw with
  | None => (Err (GOSTCipherError "GOSTCipherError: unsupported cipher mode"), {| l_cipher := None; l_calls := [] |})
  | Some init =>
      match init {| l_cipher := None; l_calls := [] |} with
      | (Ok _, l) => (Ok tt, l)
      | (Err e, l) => (Err e, snd (give_up l))
      end
  end.

(** The end of an object that [new] returned, after any calls: the finalisers called. *)
Definition cipher_of (o : new_obj) : cipher_obj := match o with NewMode o => o_cipher o | NewMac m => m_cipher m end.
Definition drop_cipher (o : new_obj) : list outcome :=
  l_calls (snd (give_up {| l_cipher := Some (cipher_of o); l_calls := [] |})).

(** ** HMAC objects: the attributes [_key] and [_hasher_obj] *)
Record hmac_life : Type := { hl_key : option bytes; hl_hasher : option hash_obj }.
(** r_50_1_113_2016.py 106-135 [__init__]: the attributes when it ends. *)
Definition hmac_attrs (name key data : pyval) : res unit * hmac_life :=
  let is256 := match name with VStr name => String.eqb name "HMAC_GOSTR3411_2012_256" | _ => false end in
  let is512 := match name with VStr name => String.eqb name "HMAC_GOSTR3411_2012_512" | _ => false end in
  let none := {| hl_key := None; hl_hasher := None |} in
  if negb (is256 || is512) then (Err (GOSTHMACError "GOSTHMACError: unsupported mode"), none)
  else
    match key with
    | VBytes key =>
        if len key >? Hmac._KEY_SIZE then (Err (GOSTHMACError "GOSTHMACError: invalid key value"), none)
        else
          let key := store_key key in
          match hash_init (if is256 then "streebog256" else "streebog512") (VBytes []) with
          | Err e => (Err e, {| hl_key := Some key; hl_hasher := None |})
          | Ok h =>
              let self := {| hm_key := key; hm_hasher := h; hm_counter := 0; hm_oid := if is256 then "1.2.643.7.1.1.4.1" else "1.2.643.7.1.1.4.2" |} in
              match data with
              | VBytes [] => (Ok tt, {| hl_key := Some key; hl_hasher := Some h |})
              | _ => let (r, self) := hmac_update data self in (r, {| hl_key := Some (hm_key self); hl_hasher := Some (hm_hasher self) |})
              end
          end
    | _ => (Err (GOSTHMACError "GOSTHMACError: invalid key value"), none)
    end.
(** r_50_1_113_2016.py 137-145 [__del__] and 209-212 [clear]. *)
Definition hmac_del (s : hmac_life) : outcome :=
  match hl_hasher s with
  | None => Done
  | Some h =>
      match fst (hash_reset h) with
      | Err e => Raised e
      | Ok _ => match hl_key s with Some _ => Done | None => NoAttribute "_key" end
      end
  end.
Definition hmac_life_of (o : hmac_obj) : hmac_life := {| hl_key := Some (hm_key o); hl_hasher := Some (hm_hasher o) |}.
(** The finalisers called by [gosthmac.new], which gives up the object when the initialiser raises. *)
Definition hmac_new_calls (name key data : pyval) : list outcome :=
  match hmac_attrs name key data with
  | (Ok _, _) => []
  | (Err _, s) => [hmac_del s]
  end.

(** ** PBKDF objects: the attributes [_password] and [_hmac_obj] *)
Record pbkdf_life : Type := { pl_password : option bytes; pl_hmac : option hmac_life; pl_calls : list outcome }.
(** r_50_1_111_2016.py 65-91 [__init__]; also the finalisers called in it, of an HMAC object that was not made. *)
Definition pbkdf_attrs (urandom : bytes) (password salt : pyval) : res unit * pbkdf_life :=
  match password with
  | VBytes password =>
      let salt := match salt with VBytes [] => VBytes urandom | _ => salt end in
      match salt with
      | VBytes _ =>
          match hmac_attrs (VStr "HMAC_GOSTR3411_2012_512") (VBytes password) (VBytes []) with
          | (Ok _, h) => (Ok tt, {| pl_password := Some password; pl_hmac := Some h; pl_calls := [] |})
          | (Err e, h) => (Err e, {| pl_password := Some password; pl_hmac := None; pl_calls := [hmac_del h] |})
          end
      | _ => (Err (GOSTPBKDFError "GOSTPBKDFError: invalid salt value"), {| pl_password := Some (zero_fill password); pl_hmac := None; pl_calls := [] |})
      end
  | _ => (Err (GOSTPBKDFError "GOSTPBKDFError: invalid password value"), {| pl_password := None; pl_hmac := None; pl_calls := [] |})
  end.
(** r_50_1_111_2016.py 93-100 [__del__] and 166-168 [clear]; then the HMAC object is given up. *)
Definition pbkdf_del (s : pbkdf_life) : outcome :=
  match pl_password s with Some _ => Done | None => NoAttribute "_password" end.
Definition pbkdf_end (s : pbkdf_life) : list outcome :=
  pbkdf_del s :: match pl_hmac s with Some h => [hmac_del h] | None => [] end.
Definition pbkdf_life_of (o : pbkdf_obj) : pbkdf_life := {| pl_password := Some (p_password o); pl_hmac := Some (hmac_life_of (p_hmac o)); pl_calls := [] |}.
Definition pbkdf_new_calls (urandom : bytes) (password salt : pyval) : list outcome :=
  match pbkdf_attrs urandom password salt with
  | (Ok _, s) => pl_calls s
  | (Err _, s) => pl_calls s ++ pbkdf_end s
  end.

(** ** Generators: the attribute [_rand_u] *)
(** r_1323565_1_006_2017.py 71-94 [__init__]: [_rand_u] is assigned before anything can raise. *)
Definition random_attrs (urandom : bytes) (rand_k : pyval) (size_s : Z) : res unit * option bytes :=
  match filling urandom size_s rand_k with
  | Ok u => (Ok tt, Some u)
  | Err e => (Err e, Some [])
  end.
(** r_1323565_1_006_2017.py 96-103 [__del__] and 167-170 [clear]. *)
Definition random_del (u : option bytes) : outcome :=
  match u with Some u => outcome_of (Ok (zero_fill u)) | None => Done end.
Definition random_new_calls (urandom : bytes) (rand_k : pyval) (size_s : Z) : list outcome :=
  match random_attrs urandom rand_k size_s with
  | (Ok _, _) => []
  | (Err _, u) => [random_del u]
  end.
