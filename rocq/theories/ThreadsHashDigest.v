(** * Threads that ask for the digest of a hash object while another one updates it *)
From Verif Require Import PyBase PyState Utils Streebog Threads ThreadsHash.
Open Scope string_scope.
Open Scope list_scope.
Open Scope Z_scope.

(** gost_34_11_2012.py 886-896 [digest]: the copy is taken in one step; what follows does not use the object. *)
Definition p_hash_digest : proc hash_obj bytes := act hash_digest.

(** A thread that updates or asks for the digest. *)
Inductive hash_thread := HUpd (data : pyval) | HDig.
Definition p_hash (t : hash_thread) : proc hash_obj (option bytes) :=
  match t with
  | HUpd data => let& _ := p_update data in Ret None
  | HDig => let& r := p_hash_digest in Ret (Some r)
  end.
