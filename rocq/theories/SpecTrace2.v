(** * What the steps of the block ciphers give away. *)
From Coq Require Import ZArith List.
Import ListNotations.
From Verif Require Import SpecKuznechik SpecMagma SpecSign SpecTrace.
Open Scope Z_scope.

(** The indices of the first two rounds of Kuznechik are the block and the first result with the halves of the key added. *)
Definition kuz_recover (block : list Z) (steps : list event) : list Z :=
  let x := firstn 16 (kuz_indices steps) in
  let y := firstn 16 (skipn 16 (kuz_indices steps)) in
  kX x block ++ kX y (kL (kS x)).
(** Eight indices, each byte with the low half first, make the sum of a round key and a half of the block. *)
Fixpoint word_of (acc : Z) (l : list Z) : Z := match l with lo :: hi :: l' => word_of (acc * 256 + hi * 16 + lo) l' | _ => acc end.
Fixpoint magma_words (n : nat) (indices : list Z) (p : Z * Z) : list Z :=
  match n with
  | O => []
  | S n' => let k := (word_of 0 (firstn 8 indices) - snd p) mod 2 ^ 32 in k :: magma_words n' (skipn 8 indices) (mG k p)
  end.
(** The first eight round keys of Magma are the words of the key. *)
Definition magma_recover (block : list Z) (steps : list event) : Z :=
  fold_left (fun v w => v * 2 ^ 32 + w) (magma_words 8 (magma_indices steps) (split32 (number block))) 0.
