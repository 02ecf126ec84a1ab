(** * Specification: the block cipher Kuznechik (GOST R 34.12-2015 section 4, RFC 7801).

    Blocks are lists of 16 octets, the most significant octet a_15 first.  This file does not
    refer to the model of the code. *)
From Coq Require Import List ZArith.
Import ListNotations.
Open Scope Z_scope.

(** RFC 7801 4.1: the substitution Pi. *)
Definition pi : list Z := [
  252; 238; 221;  17; 207; 110;  49;  22; 251; 196; 250; 218;  35; 197;   4;  77;
  233; 119; 240; 219; 147;  46; 153; 186;  23;  54; 241; 187;  20; 205;  95; 193;
  249;  24; 101;  90; 226;  92; 239;  33; 129;  28;  60;  66; 139;   1; 142;  79;
    5; 132;   2; 174; 227; 106; 143; 160;   6;  11; 237; 152; 127; 212; 211;  31;
  235;  52;  44;  81; 234; 200;  72; 171; 242;  42; 104; 162; 253;  58; 206; 204;
  181; 112;  14;  86;   8;  12; 118;  18; 191; 114;  19;  71; 156; 183;  93; 135;
   21; 161; 150;  41;  16; 123; 154; 199; 243; 145; 120; 111; 157; 158; 178; 177;
   50; 117;  25;  61; 255;  53; 138; 126; 109;  84; 198; 128; 195; 189;  13;  87;
  223; 245;  36; 169;  62; 168;  67; 201; 215; 121; 214; 246; 124;  34; 185;   3;
  224;  15; 236; 222; 122; 148; 176; 188; 220; 232;  40;  80;  78;  51;  10;  74;
  167; 151;  96; 115;  30;   0;  98;  68;  26; 184;  56; 130; 100; 159;  38;  65;
  173;  69;  70; 146;  39;  94;  85;  47; 140; 163; 165; 125; 105; 213; 149;  59;
    7;  88; 179;  64; 134; 172;  29; 247;  48;  55; 107; 228; 136; 217; 231; 137;
  225;  27; 131;  73;  76;  63; 248; 254; 141;  83; 170; 144; 202; 216; 133;  97;
   32; 113; 103; 164;  45;  43;   9;  91; 203; 155;  37; 208; 190; 229; 108;  82;
   89; 166; 116; 210; 230; 244; 180; 192; 209; 102; 175; 194;  57;  75;  99; 182].

Definition sbox (x : Z) : Z := nth (Z.to_nat x) pi 0.

(** The inverse substitution: the position of [x] in the table. *)
Fixpoint position (x : Z) (l : list Z) (i : Z) : Z :=
  match l with
  | [] => -1
  | y :: l' => if x =? y then i else position x l' (i + 1)
  end.
Definition sbox_inv (x : Z) : Z := position x pi 0.

(** Multiplication in GF(2)[x] / (x^8 + x^7 + x^6 + x + 1). *)
Definition xtime (a : Z) : Z := if 2 * a <? 256 then 2 * a else Z.lxor (2 * a) 0x1c3.
Fixpoint gf_mul_n (n : nat) (a b : Z) : Z :=
  match n with
  | O => 0
  | S n' => Z.lxor (if Z.odd b then a else 0) (gf_mul_n n' (xtime a) (b / 2))
  end.
Definition gf_mul (a b : Z) : Z := gf_mul_n 8 a b.

Definition xor_sum (l : list Z) : Z := fold_right Z.lxor 0 l.

(** RFC 7801 4.2: the linear map l(a_15, ..., a_0). *)
Definition lin_coefs : list Z := [148; 32; 133; 16; 194; 192; 1; 251; 1; 192; 194; 16; 133; 32; 148; 1].
Definition lin (a : list Z) : Z :=
  xor_sum (map (fun p => gf_mul (fst p) (snd p)) (combine lin_coefs a)).

(** RFC 7801 4.3: the transformations X, S, R, L and their inverses. *)
Definition kX (k a : list Z) : list Z := map (fun p => Z.lxor (fst p) (snd p)) (combine k a).
Definition kS (a : list Z) : list Z := map sbox a.
Definition kS_inv (a : list Z) : list Z := map sbox_inv a.
Definition kR (a : list Z) : list Z := lin a :: removelast a.
Definition kL (a : list Z) : list Z := Nat.iter 16 kR a.
Definition kR_inv (a : list Z) : list Z := tl a ++ [lin (tl a ++ [hd 0 a])].
Definition kL_inv (a : list Z) : list Z := Nat.iter 16 kR_inv a.

(** RFC 7801 4.4: key schedule. *)
Definition kF (c : list Z) (p : list Z * list Z) : list Z * list Z :=
  (kX (kL (kS (kX c (fst p)))) (snd p), fst p).
Definition kC (i : nat) : list Z := kL (repeat 0 15 ++ [Z.of_nat i]).

Fixpoint kF_range (first count : nat) (p : list Z * list Z) : list Z * list Z :=
  match count with
  | O => p
  | S n => kF_range (S first) n (kF (kC first) p)
  end.

(** (K_1,K_2), (K_3,K_4), ..., (K_9,K_10). *)
Fixpoint round_keys_from (first n : nat) (p : list Z * list Z) : list (list Z) :=
  match n with
  | O => [fst p; snd p]
  | S n' => fst p :: snd p :: round_keys_from (first + 8) n' (kF_range first 8 p)
  end.
Definition round_keys (key : list Z) : list (list Z) :=
  round_keys_from 1 4 (firstn 16 key, skipn 16 key).

(** RFC 7801 4.5: encryption and decryption. *)
Fixpoint enc_rounds (ks : list (list Z)) (a : list Z) : list Z :=
  match ks with
  | [] => a
  | [k] => kX k a
  | k :: ks' => enc_rounds ks' (kL (kS (kX k a)))
  end.
Definition spec_kuz_encrypt (key a : list Z) : list Z := enc_rounds (round_keys key) a.

Fixpoint dec_rounds (ks : list (list Z)) (a : list Z) : list Z :=
  match ks with
  | [] => a
  | [k] => kX k a
  | k :: ks' => kX k (kS_inv (kL_inv (dec_rounds ks' a)))
  end.
Definition spec_kuz_decrypt (key a : list Z) : list Z := dec_rounds (round_keys key) a.
