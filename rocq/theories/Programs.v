(** * The programs of the documentation that work on files.

    docs/source/intro.rst (the same programs are in README.rst and in docs/source/api).  A file is its contents; opening it and
    writing the output are not modelled beyond that.  The names of the algorithm, the key, the vector and the size of the buffer
    are constants in the documentation and parameters here. *)
From Verif Require Import PyBase PyState PyLoop Streebog Hmac Modes Mac SigCurves Sig.
Open Scope string_scope.
Open Scope list_scope.
Open Scope Z_scope.

(** [file.read(n)] of a regular file of which [rest] is still to be read: the bytes read and what remains.  A negative [n] reads everything. *)
Definition file_read (n : Z) (rest : bytes) : bytes * bytes :=
  if n <? 0 then (rest, []) else (firstn (Z.to_nat n) rest, skipn (Z.to_nat n) rest).

(** intro.rst 91-93 (166-169, 195-197, 333-335): [while len(buffer) > 0: body(buffer); buffer = file.read(n)]. *)
Fixpoint read_loop {S} (fuel : nat) (n : Z) (body : bytes -> M S unit) (buffer rest : bytes) (s : S) : outcome S :=
  if 0 <? len buffer then
    match fuel with
    | O => OutOfFuel
    | Datatypes.S fuel =>
        match body buffer s with
        | (Ok _, s) => let (buffer, rest) := file_read n rest in read_loop fuel n body buffer rest s
        | (Err e, _) => Raises e
        end
    end
  else Returns s.
(** intro.rst 90-93: the first [file.read(n)] and the loop. *)
Definition read_file {S} (fuel : nat) (n : Z) (body : bytes -> M S unit) (file : bytes) (s : S) : outcome S :=
  let (buffer, rest) := file_read n file in read_loop fuel n body buffer rest s.

(** intro.rst 86-94 "Getting a hash for a file". *)
Definition hash_file (fuel : nat) (name : pyval) (n : Z) (file : bytes) : outcome string :=
  let? hash_obj := liftO (hash_new name None) in
  let? hash_obj := read_file fuel n (fun buffer => hash_update (VBytes buffer)) file hash_obj in
  liftO (fst (hash_hexdigest hash_obj)).

(** intro.rst 327-336 "Getting a HMAC for a file". *)
Definition hmac_file (fuel : nat) (name key : pyval) (n : Z) (file : bytes) : outcome string :=
  let? hmac_obj := liftO (hmac_new name key None) in
  let? hmac_obj := read_file fuel n (fun buffer => hmac_update (VBytes buffer)) file hmac_obj in
  liftO (fst (hmac_hexdigest hmac_obj)).

(** intro.rst 181-198 "Calculating MAC of the file". *)
Definition mac_file (fuel : nat) (algorithm key : pyval) (n size : Z) (file : bytes) : outcome bytes :=
  match new algorithm key (VInt MODE_MAC) {| kw_init_vect := None; kw_pad_mode := None; kw_data := None |} with
  | Ok (NewMac mac_obj) =>
      let? mac_obj := read_file fuel n (fun buffer => mac_update (VBytes buffer)) file mac_obj in
      liftO (fst (mac_digest size mac_obj))
  | Ok (NewMode _) => Raises TypeError
  | Err e => Raises e
  end.

(** intro.rst 167-168: [cipher_data = cipher_obj.encrypt(buffer); cipher_file.write(cipher_data)]; the state is the object and the output. *)
Definition cipher_step (f : pyval -> M mode_obj bytes) (buffer : bytes) : M (mode_obj * bytes) unit := fun s =>
  let (cipher_obj, cipher_file) := s in
  match f (VBytes buffer) cipher_obj with
  | (Ok cipher_data, cipher_obj) => (Ok tt, (cipher_obj, cipher_file ++ cipher_data))
  | (Err e, cipher_obj) => (Err e, (cipher_obj, cipher_file))
  end.
(** intro.rst 142-169 "File encryption in CTR mode", with any mode and with [decrypt] in place of [encrypt]. *)
Definition cipher_file (f : pyval -> M mode_obj bytes) (fuel : nat) (algorithm key mode : pyval) (kw : kwargs) (n : Z) (file : bytes) : outcome bytes :=
  match new algorithm key mode kw with
  | Ok (NewMode cipher_obj) => let? s := read_file fuel n (cipher_step f) file (cipher_obj, []) in Returns (snd s)
  | Ok (NewMac _) => Raises TypeError
  | Err e => Raises e
  end.

(** intro.rst 86-94 with [digest] in place of [hexdigest]. *)
Definition digest_file (fuel : nat) (name : pyval) (n : Z) (file : bytes) : outcome bytes :=
  let? hash_obj := liftO (hash_new name None) in
  let? hash_obj := read_file fuel n (fun buffer => hash_update (VBytes buffer)) file hash_obj in
  liftO (fst (hash_digest hash_obj)).
(** intro.rst 220-223 "Signing" and 249-255 "Verify", with the digest of a file in place of the one in the documentation. *)
Definition sign_file (fuel : nat) (name : pyval) (n : Z) (sign_obj : sig_obj) (urandom : nat -> bytes) (private_key rand_k : pyval) (file : bytes) : outcome bytes :=
  let? digest := digest_file fuel name n file in sign sign_obj fuel urandom private_key (VBytes digest) rand_k.
Definition verify_file (fuel : nat) (name : pyval) (n : Z) (sign_obj : sig_obj) (public_key signature : pyval) (file : bytes) : outcome bool :=
  let? digest := digest_file fuel name n file in verify sign_obj fuel public_key (VBytes digest) signature.
