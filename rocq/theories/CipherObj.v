(** * The attribute [_cipher_obj] of a mode object: one of the two block ciphers *)
From Verif Require Import PyBase Utils Kuznechik Magma.

(** gost_34_13_2015.py 103-106 [CipherObjType]; the object of a block cipher is its list of
    round keys. *)
Inductive cipher_obj : Type :=
| KuzObj (keys : list bytes)
| MagmaObj (keys : list bytes).

(** gost_34_12_2015.py 509-517 and 716-724 [block_size]. *)
Definition co_block_size (o : cipher_obj) : Z :=
  match o with
  | KuzObj _ => _BLOCK_SIZE_KUZNECHIK
  | MagmaObj _ => _BLOCK_SIZE_MAGMA
  end.

Definition co_encrypt (o : cipher_obj) (block : bytes) : res bytes :=
  match o with
  | KuzObj keys => kuz_encrypt keys block
  | MagmaObj keys => magma_encrypt keys block
  end.

Definition co_decrypt (o : cipher_obj) (block : bytes) : res bytes :=
  match o with
  | KuzObj keys => kuz_decrypt keys block
  | MagmaObj keys => magma_decrypt keys block
  end.

Definition co_clear (o : cipher_obj) : res cipher_obj :=
  match o with
  | KuzObj keys => let* keys := kuz_clear keys in Ok (KuzObj keys)
  | MagmaObj keys => let* keys := magma_clear keys in Ok (MagmaObj keys)
  end.
