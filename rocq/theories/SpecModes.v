(** * Specification: modes of operation of block ciphers (GOST R 34.13-2015).

    Data are lists of blocks, a block a list of byte values; the block cipher is an arbitrary
    pair of functions.  This file does not refer to the model of the code. *)
From Coq Require Import List ZArith.
From Verif Require Import SpecKuznechik SpecMagma.
Import ListNotations.
Open Scope Z_scope.

(** A message cut into pieces of [n] bytes, the last possibly shorter. *)
Fixpoint blocks_fuel (fuel n : nat) (l : list Z) : list (list Z) :=
  match fuel, l with
  | S f, _ :: _ => firstn n l :: blocks_fuel f n (skipn n l)
  | _, _ => []
  end.
Definition blocks (n : nat) (l : list Z) : list (list Z) := blocks_fuel (length l) n l.

(** The whole pieces only. *)
Definition whole (n : nat) (l : list Z) : list (list Z) := firstn (length l / n) (blocks n l).

(** Bitwise sum, as long as the shorter operand. *)
Definition bxor (a b : list Z) : list Z := map (fun p => Z.lxor (fst p) (snd p)) (combine a b).

(** Big-endian numbers. *)
Definition be_bytes (n : nat) (v : Z) : list Z :=
  map (fun i => (v / 256 ^ Z.of_nat (n - 1 - i)) mod 256) (seq 0 n).
Definition be_value (l : list Z) : Z := fold_right (fun p acc => fst p * 256 ^ Z.of_nat (snd p) + acc) 0
  (combine l (rev (seq 0 (length l)))).

(** The two block ciphers on byte strings. *)
Inductive balg : Type := Kuz | Mag.
Definition bsize (a : balg) : nat := match a with Kuz => 16 | Mag => 8 end.
Definition spec_E (a : balg) (key b : list Z) : list Z :=
  match a with
  | Kuz => spec_kuz_encrypt key b
  | Mag => be_bytes 8 (spec_magma_encrypt (be_value key) (be_value b))
  end.
Definition spec_D (a : balg) (key b : list Z) : list Z :=
  match a with
  | Kuz => spec_kuz_decrypt key b
  | Mag => be_bytes 8 (spec_magma_decrypt (be_value key) (be_value b))
  end.

Section Modes.
  Variables E D : list Z -> list Z.

  (** 5.1 electronic codebook. *)
  Definition ecb_enc (ps : list (list Z)) : list (list Z) := map E ps.
  Definition ecb_dec (cs : list (list Z)) : list (list Z) := map D cs.

  (** 5.4 cipher block chaining; the register is a list of blocks, most significant first. *)
  Fixpoint cbc_enc (R ps : list (list Z)) : list (list Z) :=
    match ps with
    | [] => []
    | p :: ps' => let c := E (bxor p (hd [] R)) in c :: cbc_enc (tl R ++ [c]) ps'
    end.
  Fixpoint cbc_dec (R cs : list (list Z)) : list (list Z) :=
    match cs with
    | [] => []
    | c :: cs' => bxor (D c) (hd [] R) :: cbc_dec (tl R ++ [c]) cs'
    end.

  (** 5.5 cipher feedback with s = n. *)
  Fixpoint cfb_enc (R ps : list (list Z)) : list (list Z) :=
    match ps with
    | [] => []
    | p :: ps' => let c := bxor p (E (hd [] R)) in c :: cfb_enc (tl R ++ [c]) ps'
    end.
  Fixpoint cfb_dec (R cs : list (list Z)) : list (list Z) :=
    match cs with
    | [] => []
    | c :: cs' => bxor c (E (hd [] R)) :: cfb_dec (tl R ++ [c]) cs'
    end.

  (** 5.3 output feedback with s = n: the gamma and the mode. *)
  Fixpoint ofb_gamma (R : list (list Z)) (k : nat) : list (list Z) :=
    match k with
    | O => []
    | S k' => let y := E (hd [] R) in y :: ofb_gamma (tl R ++ [y]) k'
    end.
  Definition ofb (R ps : list (list Z)) : list (list Z) :=
    map (fun p => bxor (fst p) (snd p)) (combine ps (ofb_gamma R (length ps))).

  (** 5.2 counter mode with s = n: block i is added to E(CTR_1 + i mod 2^(8 n)). *)
  Definition ctr_mode (n : nat) (iv : list Z) (ps : list (list Z)) : list (list Z) :=
    map (fun p => bxor (fst p) (E (be_bytes n
           ((be_value iv * 256 ^ Z.of_nat (n / 2) + Z.of_nat (snd p)) mod 256 ^ Z.of_nat n))))
        (combine ps (seq 0 (length ps))).

  (** 5.6 message authentication code. *)
  Definition poly (n : nat) : Z := if Nat.eqb n 8 then 2 ^ 64 + 0x1b else 2 ^ 128 + 0x87.
  (** Multiplication by x modulo the polynomial. *)
  Definition double (n : nat) (v : Z) : Z :=
    if 2 * v <? 256 ^ Z.of_nat n then 2 * v else Z.lxor (2 * v) (poly n).
  Definition mac_key1 (n : nat) : list Z := be_bytes n (double n (be_value (E (repeat 0 n)))).
  Definition mac_key2 (n : nat) : list Z := be_bytes n (double n (double n (be_value (E (repeat 0 n))))).
  (** CBC-MAC of whole blocks from a given value. *)
  Definition cbc_mac (c0 : list Z) (ps : list (list Z)) : list Z :=
    fold_left (fun c p => E (bxor p c)) ps c0.
  Definition mac_blocks (n : nat) (m : list Z) : list (list Z) :=
    match m with [] => [[]] | _ => blocks n m end.
  Definition mac (n : nat) (m : list Z) : list Z :=
    let bl := mac_blocks n m in
    let l := last bl [] in
    let c := cbc_mac (repeat 0 n) (removelast bl) in
    if Nat.eqb (length l) n then E (bxor (bxor l c) (mac_key1 n))
    else E (bxor (bxor (l ++ 0x80 :: repeat 0 (n - 1 - length l)) c) (mac_key2 n)).
End Modes.

(** The padding the library documents: mode 1 completes the last block with zeros (a whole block
    of zeros for the empty message), mode 2 appends 0x80, zeros completing the last block and
    one more block of zeros. *)
Inductive pmode : Type := P1 | P2.
Definition pad_zeros (n : nat) (m : list Z) : nat :=
  match m with [] => n | _ => (n - length m mod n) mod n end.
Definition padding (p : pmode) (n : nat) (m : list Z) : list Z :=
  match p with
  | P1 => repeat 0 (pad_zeros n m)
  | P2 => 0x80 :: repeat 0 (n + pad_zeros n m - 1)
  end.
Definition padded (p : pmode) (n : nat) (m : list Z) : list Z := m ++ padding p n m.

(** 4.1.2 padding procedure 2: one bit 1 and as few zeros as possible. *)
Definition std_pad2 (n : nat) (m : list Z) : list Z :=
  m ++ 0x80 :: repeat 0 (n - 1 - length m mod n).
