(** * What is computed from the answers of other modes, and with the key, about codes of messages *)
From Coq Require Import ZArith List.
From Verif Require Import SpecModes.
Import ListNotations.
Open Scope Z_scope.

(** The answer to one block of zeros when the block [b] is the vector. *)
Definition via_vector (n : nat) (enc : list Z -> list Z -> list Z) (b : list Z) : list Z := enc b (repeat 0 n).

Section Fill.
  Variables E D : list Z -> list Z.
  (** From the value after the blocks [bl] back to the value before them. *)
  Fixpoint back (c : list Z) (bl : list (list Z)) : list Z :=
    match bl with [] => c | b :: bl => bxor (D (back c bl)) b end.
  (** The block between [u] (whole blocks) and [w] that gives the message the code [v]. *)
  Definition fill (n : nat) (v u w : list Z) : list Z :=
    let c0 := cbc_mac E (repeat 0 n) (blocks n u) in
    match w with
    | [] => bxor (bxor (D v) (mac_key1 E n)) c0
    | _ => let bl := mac_blocks n w in
           let t := last bl [] in
           let l := if Nat.eqb (length t) n then bxor t (mac_key1 E n) else bxor (t ++ 0x80 :: repeat 0 (n - 1 - length t)) (mac_key2 E n) in
           bxor (D (back (bxor (D v) l) (removelast bl))) c0
    end.
End Fill.
