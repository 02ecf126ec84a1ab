(** * Specification of HMAC (R 50.1.113-2016, RFC 2104) over Streebog.

    This file does not refer to the model of the code. *)
From Coq Require Import List ZArith.
From Verif Require Import SpecStreebog.
Import ListNotations.
Open Scope Z_scope.

(** The key padded with zeros to 64 octets. *)
Definition K0 (k : list Z) : list Z := k ++ repeat 0 (64 - length k).

Definition with_pad (p : Z) (k : list Z) : list Z := map (fun x => Z.lxor x p) k.

(** The two nested hashes, for a 64-octet block [k]. *)
Definition outer (v : variant) (k inner : list Z) : list Z := streebog v (with_pad 0x5c k ++ inner).
Definition inner (v : variant) (k m : list Z) : list Z := streebog v (with_pad 0x36 k ++ m).

Definition hmac (v : variant) (key m : list Z) : list Z := outer v (K0 key) (inner v (K0 key) m).

(** The constant block left by clear(): the characters "/x00" sixteen times. *)
Definition public_block : list Z := concat (repeat [0x2f; 0x78; 0x30; 0x30] 16).
