(** * Specification: the hash function Streebog (GOST R 34.11-2012, RFC 6986).

    A 512-bit vector is a list of 64 octets, the least significant octet a_0 first; a message is
    a list of octets, the first octet being the least significant one.  The counters N and Sigma
    are integers.  This file does not refer to the model of the code. *)
From Coq Require Import List ZArith.
From Verif Require Import SpecKuznechik.
Import ListNotations.
Open Scope Z_scope.

(** Little-endian octets of an integer, and back. *)
Fixpoint le_bytes (n : nat) (v : Z) : list Z :=
  match n with
  | O => []
  | S n' => v mod 256 :: le_bytes n' (v / 256)
  end.
Fixpoint le_value (a : list Z) : Z :=
  match a with
  | [] => 0
  | x :: a' => x + 256 * le_value a'
  end.

(** RFC 6986 5.4: the rows of the matrix A. *)
Definition matrix_A : list Z := [
  0x8e20faa72ba0b470; 0x47107ddd9b505a38; 0xad08b0e0c3282d1c; 0xd8045870ef14980e;
  0x6c022c38f90a4c07; 0x3601161cf205268d; 0x1b8e0b0e798c13c8; 0x83478b07b2468764;
  0xa011d380818e8f40; 0x5086e740ce47c920; 0x2843fd2067adea10; 0x14aff010bdd87508;
  0x0ad97808d06cb404; 0x05e23c0468365a02; 0x8c711e02341b2d01; 0x46b60f011a83988e;
  0x90dab52a387ae76f; 0x486dd4151c3dfdb9; 0x24b86a840e90f0d2; 0x125c354207487869;
  0x092e94218d243cba; 0x8a174a9ec8121e5d; 0x4585254f64090fa0; 0xaccc9ca9328a8950;
  0x9d4df05d5f661451; 0xc0a878a0a1330aa6; 0x60543c50de970553; 0x302a1e286fc58ca7;
  0x18150f14b9ec46dd; 0x0c84890ad27623e0; 0x0642ca05693b9f70; 0x0321658cba93c138;
  0x86275df09ce8aaa8; 0x439da0784e745554; 0xafc0503c273aa42a; 0xd960281e9d1d5215;
  0xe230140fc0802984; 0x71180a8960409a42; 0xb60c05ca30204d21; 0x5b068c651810a89e;
  0x456c34887a3805b9; 0xac361a443d1c8cd2; 0x561b0d22900e4669; 0x2b838811480723ba;
  0x9bcf4486248d9f5d; 0xc3e9224312c8c1a0; 0xeffa11af0964ee50; 0xf97d86d98a327728;
  0xe4fa2054a80b329c; 0x727d102a548b194e; 0x39b008152acb8227; 0x9258048415eb419d;
  0x492c024284fbaec0; 0xaa16012142f35760; 0x550b8e9e21f7a530; 0xa48b474f9ef5dc18;
  0x70a6a56e2440598e; 0x3853dc371220a247; 0x1ca76e95091051ad; 0x0edd37c48a08a6d8;
  0x07e095624504536c; 0x8d70c431ac02a736; 0xc83862965601dd1b; 0x641c314b2b8ee083].

(** RFC 6986 5.5: the iteration constants C_1..C_12. *)
Definition iteration_C : list Z := [
  0xb1085bda1ecadae9ebcb2f81c0657c1f2f6a76432e45d016714eb88d7585c4fc4b7ce09192676901a2422a08a460d31505767436cc744d23dd806559f2a64507;
  0x6fa3b58aa99d2f1a4fe39d460f70b5d7f3feea720a232b9861d55e0f16b501319ab5176b12d699585cb561c2db0aa7ca55dda21bd7cbcd56e679047021b19bb7;
  0xf574dcac2bce2fc70a39fc286a3d843506f15e5f529c1f8bf2ea7514b1297b7bd3e20fe490359eb1c1c93a376062db09c2b6f443867adb31991e96f50aba0ab2;
  0xef1fdfb3e81566d2f948e1a05d71e4dd488e857e335c3c7d9d721cad685e353fa9d72c82ed03d675d8b71333935203be3453eaa193e837f1220cbebc84e3d12e;
  0x4bea6bacad4747999a3f410c6ca923637f151c1f1686104a359e35d7800fffbdbfcd1747253af5a3dfff00b723271a167a56a27ea9ea63f5601758fd7c6cfe57;
  0xae4faeae1d3ad3d96fa4c33b7a3039c02d66c4f95142a46c187f9ab49af08ec6cffaa6b71c9ab7b40af21f66c2bec6b6bf71c57236904f35fa68407a46647d6e;
  0xf4c70e16eeaac5ec51ac86febf240954399ec6c7e6bf87c9d3473e33197a93c90992abc52d822c3706476983284a05043517454ca23c4af38886564d3a14d493;
  0x9b1f5b424d93c9a703e7aa020c6e41414eb7f8719c36de1e89b4443b4ddbc49af4892bcb929b069069d18d2bd1a5c42f36acc2355951a8d9a47f0dd4bf02e71e;
  0x378f5a541631229b944c9ad8ec165fde3a7d3a1b258942243cd955b7e00d0984800a440bdbb2ceb17b2b8a9aa6079c540e38dc92cb1f2a607261445183235adb;
  0xabbedea680056f52382ae548b2e4f3f38941e71cff8a78db1fffe18a1b3361039fe76702af69334b7a1e6c303b7652f43698fad1153bb6c374b4c7fb98459ced;
  0x7bcd9ed0efc889fb3002c6cd635afe94d8fa6bbbebab076120018021148466798a1d71efea48b9caefbacd1d7d476e98dea2594ac06fd85d6bcaa4cd81f32d1b;
  0x378ee767f11631bad21380b00449b17acda43c32bcdf1d77f82012d430219f9b5d80ef9d1891cc86e71da4aa88e12852faf417d5d9b21b9948bc924af11bd720].

(** X[k] *)
Definition sX (k a : list Z) : list Z := map (fun p => Z.lxor (fst p) (snd p)) (combine k a).

(** S: the substitution of octets (the same as that of Kuznechik, RFC 6986 5.2). *)
Definition sS (a : list Z) : list Z := map sbox a.

(** P: the permutation of octets, tau(i) = 8 (i mod 8) + i div 8 (RFC 6986 5.3). *)
Definition tau (i : nat) : nat := (8 * (i mod 8) + i / 8)%nat.
Definition sP (a : list Z) : list Z := map (fun i => nth (tau i) a 0) (seq 0 64).

(** l: the linear map of 64-bit vectors, b_63 A_0 + b_62 A_1 + ... + b_0 A_63; L applies it to the
    eight 64-bit parts. *)
Definition sl (b : Z) : Z :=
  xor_sum (map (fun k => if Z.testbit b (Z.of_nat k) then nth (63 - k) matrix_A 0 else 0) (seq 0 64)).
Definition sL (a : list Z) : list Z :=
  concat (map (fun i => le_bytes 8 (sl (le_value (firstn 8 (skipn (8 * i) a))))) (seq 0 8)).

Definition LPS (a : list Z) : list Z := sL (sP (sS a)).

(** E(K, m) = X[K_13] LPSX[K_12] ... LPSX[K_1](m) with K_(i+1) = LPS(K_i + C_i). *)
Fixpoint sE_rounds (cs : list Z) (k m : list Z) : list Z :=
  match cs with
  | [] => sX k m
  | c :: cs' => sE_rounds cs' (LPS (sX k (le_bytes 64 c))) (LPS (sX k m))
  end.
Definition sE (k m : list Z) : list Z := sE_rounds iteration_C k m.

(** g_N(h, m) = E(LPS(h + N), m) + h + m. *)
Definition sg (n : Z) (h m : list Z) : list Z := sX (sX (sE (LPS (sX h (le_bytes 64 n))) m) h) m.

(** RFC 6986 8: the hash function. *)
Inductive variant : Type := S256 | S512.

Record state : Type := { st_h : list Z; st_N : Z; st_Sigma : Z }.

(** Stage 1. *)
Definition stage1 (v : variant) : state :=
  {| st_h := match v with S256 => repeat 1 64 | S512 => repeat 0 64 end; st_N := 0; st_Sigma := 0 |}.

(** Stage 2, items 2.2-2.6 for one full block. *)
Definition absorb (s : state) (m : list Z) : state :=
  {| st_h := sg (st_N s) (st_h s) m;
     st_N := (st_N s + 512) mod 2 ^ 512;
     st_Sigma := (st_Sigma s + le_value m) mod 2 ^ 512 |}.
Fixpoint stage2 (k : nat) (s : state) (m : list Z) : state * list Z :=
  match k with
  | O => (s, m)
  | S k' => stage2 k' (absorb s (firstn 64 m)) (skipn 64 m)
  end.

(** Stage 3: the rest of the message, shorter than a block, is padded with 1 and zeros. *)
Definition pad (m : list Z) : list Z := m ++ [1] ++ repeat 0 (63 - length m).
Definition stage3 (s : state) (m : list Z) : list Z :=
  let h := sg (st_N s) (st_h s) (pad m) in
  let N := (st_N s + 8 * Z.of_nat (length m)) mod 2 ^ 512 in
  let Sigma := (st_Sigma s + le_value (pad m)) mod 2 ^ 512 in
  sg 0 (sg 0 h (le_bytes 64 N)) (le_bytes 64 Sigma).

(** The most significant 256 bits for the short variant. *)
Definition hash_bytes (v : variant) : nat := match v with S256 => 32%nat | S512 => 64%nat end.
Definition streebog (v : variant) (m : list Z) : list Z :=
  let (s, rest) := stage2 (length m / 64) (stage1 v) m in
  skipn (64 - hash_bytes v) (stage3 s rest).
