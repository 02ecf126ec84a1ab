(** * Threads with an object each *)
From Verif Require Import PyBase PyState Utils CipherObj Modes Mac Streebog Hmac Pbkdf Random Threads ThreadsRandom ThreadsHash ThreadsMac ThreadsPbkdf ThreadsHmac ThreadsModes.
Open Scope string_scope.
Open Scope list_scope.
Open Scope Z_scope.

(** The objects of the library that change, and the calls that change or read them. *)
Inductive thing : Type := TMode (o : mode_obj) | TMac (o : mac_obj) | THash (o : hash_obj) | THmac (o : hmac_obj) | TPbkdf (o : pbkdf_obj) | TRandom (o : random_obj).
Inductive tcall : Type := KEncrypt (data : pyval) | KDecrypt (data : pyval) | KUpdate (data : pyval) | KMac (mac_size : Z) | KDigest | KReset | KDerive (dk_len : Z) | KRandom.

(** ** The calls of the model, on values; a method that the object does not have is refused *)
Definition inT {S A} (wrap : S -> thing) (out : A -> bytes) (r : res A * S) : res bytes * thing :=
  match r with (Ok a, s) => (Ok (out a), wrap s) | (Err e, s) => (Err e, wrap s) end.
Definition do_call (c : tcall) (t : thing) : res bytes * thing :=
  let nothing := fun _ : unit => [] in
  let all := fun b : bytes => b in
  match c, t with
  | KEncrypt data, TMode o => inT TMode all (encrypt data o)
  | KDecrypt data, TMode o => inT TMode all (decrypt data o)
  | KUpdate data, TMac o => inT TMac nothing (mac_update data o)
  | KMac n, TMac o => inT TMac all (mac_digest n o)
  | KUpdate data, THash o => inT THash nothing (hash_update data o)
  | KDigest, THash o => inT THash all (hash_digest o)
  | KReset, THash o => inT THash nothing (hash_reset o)
  | KUpdate data, THmac o => inT THmac nothing (hmac_update data o)
  | KDigest, THmac o => inT THmac all (hmac_digest o)
  | KReset, THmac o => inT THmac nothing (hmac_reset o)
  | KDerive n, TPbkdf o => inT TPbkdf all (derive n o)
  | KRandom, TRandom o => inT TRandom all (random o)
  | _, _ => (Err TypeError, t)
  end.

(** ** The calls statement by statement *)
(** gost_34_13_2015.py 784-799 [GOST34132015ofb.decrypt], 884-899 [GOST34132015ctr.decrypt]. *)
Definition p_ofb_decrypt (data : pyval) : proc mode_obj bytes := let& _ := act (check_ciphertext data) in p_ofb_encrypt data.
Definition p_ctr_decrypt (data : pyval) : proc mode_obj bytes := let& data := act (check_ciphertext data) in p_ctr_encrypt (VBytes data).
(** The method of the class. *)
Definition p_encrypt (c : mode_class) (data : pyval) : proc mode_obj bytes :=
  match c with ECB => p_ecb_encrypt data | CBC => p_cbc_encrypt data | CFB => p_cfb_encrypt data | OFB => p_ofb_encrypt data | CTR => p_ctr_encrypt data end.
Definition p_decrypt (c : mode_class) (data : pyval) : proc mode_obj bytes :=
  match c with ECB => p_ecb_decrypt data | CBC => p_cbc_decrypt data | CFB => p_cfb_decrypt data | OFB => p_ofb_decrypt data | CTR => p_ctr_decrypt data end.

(** A call on an object of one kind as a call on a thing. *)
Fixpoint inside {S A} (wrap : S -> thing) (unwrap : thing -> option S) (p : proc S A) : proc thing A :=
  match p with
  | Ret a => Ret a
  | Exc e => Exc e
  | Act k => Act (fun t => match unwrap t with Some s => let (s', p') := k s in (wrap s', inside wrap unwrap p') | None => (t, Exc TypeError) end)
  end.
Definition un_mode (t : thing) : option mode_obj := match t with TMode o => Some o | _ => None end.
Definition un_mac (t : thing) : option mac_obj := match t with TMac o => Some o | _ => None end.
Definition un_hash (t : thing) : option hash_obj := match t with THash o => Some o | _ => None end.
Definition un_hmac (t : thing) : option hmac_obj := match t with THmac o => Some o | _ => None end.
Definition un_pbkdf (t : thing) : option pbkdf_obj := match t with TPbkdf o => Some o | _ => None end.
Definition un_random (t : thing) : option random_obj := match t with TRandom o => Some o | _ => None end.
Definition silent {S} (p : proc S unit) : proc S bytes := let& _ := p in Ret [].
(** The method is looked up in one action; [digest] and [reset] of hash objects and [digest] of HMAC objects are one action. *)
Definition p_call (c : tcall) : proc thing bytes :=
  Act (fun t => (t,
    match c, t with
    | KEncrypt data, TMode o => inside TMode un_mode (p_encrypt (o_class o) data)
    | KDecrypt data, TMode o => inside TMode un_mode (p_decrypt (o_class o) data)
    | KUpdate data, TMac _ => inside TMac un_mac (silent (p_mac_update data))
    | KMac n, TMac _ => inside TMac un_mac (p_mac_digest n)
    | KUpdate data, THash _ => inside THash un_hash (silent (p_update data))
    | KDigest, THash _ => inside THash un_hash (act hash_digest)
    | KReset, THash _ => inside THash un_hash (silent (act hash_reset))
    | KUpdate data, THmac _ => inside THmac un_hmac (silent (p_hmac_update data))
    | KDigest, THmac _ => inside THmac un_hmac (act hmac_digest)
    | KReset, THmac _ => inside THmac un_hmac (silent p_hmac_reset)
    | KDerive n, TPbkdf _ => inside TPbkdf un_pbkdf (p_derive n)
    | KRandom, TRandom _ => inside TRandom un_random p_random
    | _, _ => Exc TypeError
    end)).

(** The program of a thread: calls one after the other, exceptions caught and noted. *)
Fixpoint try {S A} (p : proc S A) : proc S (res A) :=
  match p with
  | Ret a => Ret (Ok a)
  | Exc e => Ret (Err e)
  | Act k => Act (fun s => let (s', p') := k s in (s', try p'))
  end.
Fixpoint p_calls (cs : list tcall) : proc thing (list (res bytes)) :=
  match cs with
  | [] => Ret []
  | c :: cs => let& r := try (p_call c) in let& rs := p_calls cs in Ret (r :: rs)
  end.

(** Thread number [i] works with object number [i]. *)
Fixpoint with_object {S A} (i : nat) (p : proc S A) : proc (list S) A :=
  match p with
  | Ret a => Ret a
  | Exc e => Exc e
  | Act k => Act (fun w => match nth_error w i with Some s => let (s', p') := k s in (upd w i s', with_object i p') | None => (w, Exc TypeError) end)
  end.
Fixpoint threads (i : nat) (progs : list (list tcall)) : list (proc (list thing) (list (res bytes))) :=
  match progs with
  | [] => []
  | cs :: progs => with_object i (p_calls cs) :: threads (S i) progs
  end.
