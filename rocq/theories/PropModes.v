(** * Properties C16-C23 and C31: encryption modes, round trips and conformance *)
From Verif Require Import PyBase PyState Utils CipherObj Modes Mac SpecModes SpecNew CipherLemmas CipherObjFacts.
From Verif Require Import ModeLemmas ModeProps ModeSim ModeNew ModeExamples.
Open Scope string_scope.
Open Scope list_scope.
Open Scope Z_scope.

Theorem C16_ecb_roundtrip : forall a key kw p m,
  bytes_len 32 key -> gives_pad kw p -> bytes_ok m ->
  exists o ct, new (alg a) (VBytes key) (VInt MODE_ECB) kw = Ok (NewMode o) /\
    encrypt (VBytes m) o = (Ok ct, o) /\ decrypt (VBytes ct) o = (Ok (padded p (bsize a) m), o).
Proof. exact roundtrip_ecb. Qed.
Print Assumptions C16_ecb_roundtrip.

Example C16_example : bytes_len 32 magma_test_key /\ gives_pad (with_pad P1) P1 /\ bytes_ok (firstn 13 plain8) /\
  encdec Mag magma_test_key MODE_ECB (with_pad P1) plain8 = Ok (ecb_ct8, plain8) /\
  (let* (_, p) := encdec Mag magma_test_key MODE_ECB (with_pad P1) (firstn 13 plain8) in Ok p) =
    Ok (firstn 13 plain8 ++ repeat 0 3).
Proof.
  split; [concrete_bytes|]. split; [reflexivity|]. split; [concrete_bytes|].
  split; vm_compute; reflexivity.
Qed.

(** Decryption by a second, fresh object of the same key and IV; the round trip holds from the
    state of a fresh object. *)
Theorem C17_cbc_roundtrip : forall a key kw p iv m,
  bytes_len 32 key -> gives_pad kw p -> gives_iv kw iv -> iv_blocks a iv -> bytes_ok m ->
  exists o ct o1 o2, new (alg a) (VBytes key) (VInt MODE_CBC) kw = Ok (NewMode o) /\
    encrypt (VBytes m) o = (Ok ct, o1) /\ decrypt (VBytes ct) o = (Ok (padded p (bsize a) m), o2).
Proof. exact roundtrip_cbc. Qed.
Print Assumptions C17_cbc_roundtrip.

Example C17_example : gives_iv (with_iv iv24 P2) iv24 /\ gives_pad (with_iv iv24 P2) P2 /\ iv_blocks Mag iv24 /\
  encdec Mag magma_test_key MODE_CBC (with_iv iv24 P1) plain8 = Ok (cbc_ct8, plain8) /\
  (let* (_, p) := encdec Mag magma_test_key MODE_CBC (with_iv iv24 P2) (firstn 9 plain8) in Ok p) =
    Ok (firstn 9 plain8 ++ 0x80 :: repeat 0 14).
Proof.
  split; [reflexivity|]. split; [reflexivity|]. split; [split; [concrete_bytes|split; [discriminate|reflexivity]]|].
  split; vm_compute; reflexivity.
Qed.

Theorem C18_cfb_roundtrip : forall a key kw iv m,
  bytes_len 32 key -> gives_iv kw iv -> iv_blocks a iv -> bytes_ok m ->
  exists o ct o1 o2, new (alg a) (VBytes key) (VInt MODE_CFB) kw = Ok (NewMode o) /\
    encrypt (VBytes m) o = (Ok ct, o1) /\ decrypt (VBytes ct) o = (Ok m, o2).
Proof. exact roundtrip_cfb. Qed.
Print Assumptions C18_cfb_roundtrip.

Example C18_example : iv_blocks Mag (firstn 16 iv32) /\
  encdec Mag magma_test_key MODE_CFB (with_iv (firstn 16 iv24) P1) plain8 = Ok (cfb_ct8, plain8) /\
  (let* (_, p) := encdec Mag magma_test_key MODE_CFB (with_iv (firstn 16 iv32) P1) (firstn 21 plain16) in Ok p) =
    Ok (firstn 21 plain16).
Proof. split; [split; [concrete_bytes|split; [discriminate|reflexivity]]|]. split; vm_compute; reflexivity. Qed.

Theorem C19_ofb_roundtrip : forall a key kw iv m,
  bytes_len 32 key -> gives_iv kw iv -> iv_blocks a iv -> bytes_ok m ->
  exists o ct o1 o2, new (alg a) (VBytes key) (VInt MODE_OFB) kw = Ok (NewMode o) /\
    encrypt (VBytes m) o = (Ok ct, o1) /\ decrypt (VBytes ct) o = (Ok m, o2).
Proof. exact roundtrip_ofb. Qed.
Print Assumptions C19_ofb_roundtrip.

Example C19_example :
  encdec Mag magma_test_key MODE_OFB (with_iv (firstn 16 iv24) P1) plain8 = Ok (ofb_ct8, plain8) /\
  (let* (_, p) := encdec Mag magma_test_key MODE_OFB (with_iv (firstn 8 iv32) P1) (firstn 5 plain16) in Ok p) =
    Ok (firstn 5 plain16).
Proof. split; vm_compute; reflexivity. Qed.

Theorem C20_ctr_roundtrip : forall a key kw iv m,
  bytes_len 32 key -> gives_iv kw iv -> bytes_len (half a) iv -> bytes_ok m ->
  exists o ct o1 o2, new (alg a) (VBytes key) (VInt MODE_CTR) kw = Ok (NewMode o) /\
    encrypt (VBytes m) o = (Ok ct, o1) /\ decrypt (VBytes ct) o = (Ok m, o2).
Proof. exact roundtrip_ctr. Qed.
Print Assumptions C20_ctr_roundtrip.

Example C20_example : bytes_len (half Kuz) (firstn 8 iv32) /\
  encdec Mag magma_test_key MODE_CTR (with_iv (firstn 4 iv24) P1) plain8 = Ok (ctr_ct8, plain8) /\
  (let* (_, p) := encdec Mag magma_test_key MODE_CTR (with_iv (firstn 4 iv32) P1) (firstn 21 plain16) in Ok p) =
    Ok (firstn 21 plain16).
Proof. split; [concrete_bytes|]. split; vm_compute; reflexivity. Qed.

Theorem C21_ecb_conforms : forall a key kw p m,
  bytes_len 32 key -> gives_pad kw p -> bytes_ok m ->
  exists o, new (alg a) (VBytes key) (VInt MODE_ECB) kw = Ok (NewMode o) /\
    encrypt (VBytes m) o = (Ok (concat (ecb_enc (spec_E a key) (blocks (bsize a) (padded p (bsize a) m)))), o) /\
    decrypt (VBytes m) o = (Ok (concat (ecb_dec (spec_D a key) (whole (bsize a) m))), o).
Proof. exact conforms_ecb. Qed.
Print Assumptions C21_ecb_conforms.
Theorem C21_cbc_conforms : forall a key kw p iv m,
  bytes_len 32 key -> gives_pad kw p -> gives_iv kw iv -> iv_blocks a iv -> bytes_ok m ->
  exists o, new (alg a) (VBytes key) (VInt MODE_CBC) kw = Ok (NewMode o) /\
    result (encrypt (VBytes m) o) =
      Ok (concat (cbc_enc (spec_E a key) (blocks (bsize a) iv) (blocks (bsize a) (padded p (bsize a) m)))) /\
    result (decrypt (VBytes m) o) =
      Ok (concat (cbc_dec (spec_D a key) (blocks (bsize a) iv) (whole (bsize a) m))).
Proof. exact conforms_cbc. Qed.
Print Assumptions C21_cbc_conforms.
Theorem C21_cfb_conforms : forall a key kw iv m,
  bytes_len 32 key -> gives_iv kw iv -> iv_blocks a iv -> bytes_ok m ->
  exists o, new (alg a) (VBytes key) (VInt MODE_CFB) kw = Ok (NewMode o) /\
    result (encrypt (VBytes m) o) = Ok (concat (cfb_enc (spec_E a key) (blocks (bsize a) iv) (blocks (bsize a) m))) /\
    result (decrypt (VBytes m) o) = Ok (concat (cfb_dec (spec_E a key) (blocks (bsize a) iv) (blocks (bsize a) m))).
Proof. exact conforms_cfb. Qed.
Print Assumptions C21_cfb_conforms.
Theorem C21_ofb_conforms : forall a key kw iv m,
  bytes_len 32 key -> gives_iv kw iv -> iv_blocks a iv -> bytes_ok m ->
  exists o, new (alg a) (VBytes key) (VInt MODE_OFB) kw = Ok (NewMode o) /\
    result (encrypt (VBytes m) o) = Ok (concat (ofb (spec_E a key) (blocks (bsize a) iv) (blocks (bsize a) m))) /\
    result (decrypt (VBytes m) o) = Ok (concat (ofb (spec_E a key) (blocks (bsize a) iv) (blocks (bsize a) m))).
Proof. exact conforms_ofb. Qed.
Print Assumptions C21_ofb_conforms.

(** The specifications give the examples of the standard (appendix A). *)
Example C21_example :
  concat (ecb_enc (spec_E Mag magma_test_key) (blocks 8 plain8)) = ecb_ct8 /\
  concat (cbc_enc (spec_E Mag magma_test_key) (blocks 8 iv24) (blocks 8 plain8)) = cbc_ct8 /\
  concat (cfb_enc (spec_E Mag magma_test_key) (blocks 8 (firstn 16 iv24)) (blocks 8 plain8)) = cfb_ct8 /\
  concat (ofb (spec_E Mag magma_test_key) (blocks 8 (firstn 16 iv24)) (blocks 8 plain8)) = ofb_ct8.
Proof. repeat match goal with |- _ /\ _ => split end; vm_compute; reflexivity. Qed.

Theorem C22_ctr_conforms : forall a key kw iv m,
  bytes_len 32 key -> gives_iv kw iv -> bytes_len (half a) iv -> bytes_ok m -> len m <= 256 * Z.of_nat (bsize a) ->
  exists o, new (alg a) (VBytes key) (VInt MODE_CTR) kw = Ok (NewMode o) /\
    result (encrypt (VBytes m) o) = Ok (concat (ctr_mode (spec_E a key) (bsize a) iv (blocks (bsize a) m))) /\
    result (decrypt (VBytes m) o) = Ok (concat (ctr_mode (spec_E a key) (bsize a) iv (blocks (bsize a) m))).
Proof. exact conforms_ctr. Qed.
Print Assumptions C22_ctr_conforms.

Example C22_example : len plain8 <= 256 * Z.of_nat (bsize Mag) /\
  concat (ctr_mode (spec_E Mag magma_test_key) 8 (firstn 4 iv24) (blocks 8 plain8)) = ctr_ct8.
Proof. split; [vm_compute; discriminate | vm_compute; reflexivity]. Qed.

(** C23: the claim is that below 2^(n/2) blocks no keystream block is used twice, so that the
    difference of two ciphertext blocks is not that of the plaintext blocks. *)
Definition ctr_keystream_distinct : Prop := forall a key kw iv m i j,
  bytes_len 32 key -> gives_iv kw iv -> bytes_len (half a) iv -> bytes_ok m ->
  ((i + 1) * bsize a <= List.length m)%nat -> ((j + 1) * bsize a <= List.length m)%nat -> i <> j ->
  exists o ct, new (alg a) (VBytes key) (VInt MODE_CTR) kw = Ok (NewMode o) /\
    result (encrypt (VBytes m) o) = Ok ct /\
    bxor (nth_block (bsize a) ct i) (nth_block (bsize a) ct j) <>
    bxor (nth_block (bsize a) m i) (nth_block (bsize a) m j).

Theorem C23_ctr_keystream_refuted : ~ ctr_keystream_distinct.
Proof. exact ctr_distinct_refuted. Qed.
Print Assumptions C23_ctr_keystream_refuted.

(** Exactly the block positions that agree modulo 256 share a keystream block. *)
Theorem C23_ctr_keystream_period : forall a key kw iv m i j,
  bytes_len 32 key -> gives_iv kw iv -> bytes_len (half a) iv -> bytes_ok m ->
  ((i + 1) * bsize a <= List.length m)%nat -> ((j + 1) * bsize a <= List.length m)%nat ->
  exists o ct, new (alg a) (VBytes key) (VInt MODE_CTR) kw = Ok (NewMode o) /\
    result (encrypt (VBytes m) o) = Ok ct /\
    (bxor (nth_block (bsize a) ct i) (nth_block (bsize a) ct j) =
     bxor (nth_block (bsize a) m i) (nth_block (bsize a) m j) <-> (i mod 256 = j mod 256)%nat).
Proof. exact ctr_repeats_iff. Qed.
Print Assumptions C23_ctr_keystream_period.

Example C23_example : gives_iv (with_iv (firstn 4 iv24) P1) (firstn 4 iv24) /\ bytes_len (half Mag) (firstn 4 iv24) /\
  bytes_ok (repeat 0 2056) /\ ((256 + 1) * bsize Mag <= List.length (repeat 0%Z 2056))%nat.
Proof. split; [reflexivity|]. split; [concrete_bytes|]. split; [concrete_bytes|]. rewrite repeat_length. cbn. lia. Qed.

(** The argument checks of [new], in order, for every mode but MAC (for which see C31 in PropMac). *)
Theorem C31_constructor : forall algorithm key mode kw,
  mode <> VInt MODE_MAC -> arg_ok key -> kw_ok kw ->
  match first_failure (conditions algorithm key mode kw) with
  | Some msg => new algorithm key mode kw = Err (GOSTCipherError msg)
  | None => exists o, new algorithm key mode kw = Ok (NewMode o)
  end.
Proof. exact new_checks. Qed.
Print Assumptions C31_constructor.

Example C31_example :
  first_failure (conditions (VStr "magma") (VBytes magma_test_key) (VInt MODE_CBC) (with_iv iv32 P2)) = None /\
  first_failure (conditions (VStr "magma") (VBytes magma_test_key) (VInt MODE_CBC) (with_iv (firstn 9 iv32) P2)) =
    Some "GOSTCipherError: invalid initialization vector value" /\
  first_failure (conditions (VStr "aes") (VBytes []) (VInt MODE_CBC) (with_iv iv32 P2)) =
    Some "GOSTCipherError: unsupported cipher algorithm" /\
  first_failure (conditions (VStr "aes") (VBytes []) (VInt 4) (with_iv iv32 P2)) =
    Some "GOSTCipherError: unsupported cipher mode" /\
  first_failure (conditions (VStr "kuznechik") (VStr "key") (VInt MODE_ECB) (with_iv iv32 P2)) =
    Some "GOSTCipherError: invalid key value".
Proof. repeat split. Qed.
