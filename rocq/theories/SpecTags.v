(** * Keys derived with tags got from someone else *)
From Coq Require Import List ZArith.
Import ListNotations.
Open Scope Z_scope.

Section Ask.
  (** [tag m]: the answer to the request for the tag of [m]. *)
  Variable tag : list Z -> list Z.
  (** Four octets, most significant first. *)
  Definition number (i : nat) : list Z := let i := Z.of_nat i in [i / 2 ^ 24 mod 256; i / 2 ^ 16 mod 256; i / 2 ^ 8 mod 256; i mod 256].
  Definition plus (a b : list Z) : list Z := map (fun p => Z.lxor (fst p) (snd p)) (combine a b).
  (** The sum [s] and the last tag [u]; [c] more tags are asked for. *)
  Fixpoint collect (c : nat) (s u : list Z) : list Z :=
    match c with O => s | S c => let u := tag u in collect c (plus s u) u end.
  (** [c] tags for every 64 octets of the key. *)
  Definition ask_block (salt : list Z) (c i : nat) : list Z := let u := tag (salt ++ number i) in collect (c - 1) u u.
  Definition ask_key (salt : list Z) (c size : nat) : list Z := firstn size (flat_map (ask_block salt c) (seq 1 ((size + 63) / 64))).
End Ask.
