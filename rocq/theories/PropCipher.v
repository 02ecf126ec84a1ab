(** * Properties C10-C15: the block ciphers *)
From Verif Require Import PyBase Utils Kuznechik Magma SpecKuznechik SpecMagma CipherLemmas.

(** Test data of GOST R 34.12-2015 appendix A. *)
Definition kuz_test_key : bytes := int_to_bytearray 0x8899aabbccddeeff0011223344556677fedcba98765432100123456789abcdef 32.
Definition kuz_test_block : bytes := int_to_bytearray 0x1122334455667700ffeeddccbbaa9988 16.
Definition magma_test_key : bytes := int_to_bytearray 0xffeeddccbbaa99887766554433221100f0f1f2f3f4f5f6f7f8f9fafbfcfdfeff 32.
Definition magma_test_block : bytes := int_to_bytearray 0xfedcba9876543210 8.

Theorem C10_kuznechik_inverse : forall key b, bytes_len 32 key -> bytes_len 16 b ->
  exists ks, kuz_new key = Ok ks /\
    (exists c, kuz_encrypt ks b = Ok c /\ kuz_decrypt ks c = Ok b) /\
    (exists c, kuz_decrypt ks b = Ok c /\ kuz_encrypt ks c = Ok b).
Proof.
  intros key b Hk Hb. destruct (kuz_new_total key Hk) as [ks E]. exists ks.
  exact (conj E (kuz_roundtrip key ks b Hk E Hb)).
Qed.
Print Assumptions C10_kuznechik_inverse.

Example C10_example : bytes_len 32 kuz_test_key /\ bytes_len 16 kuz_test_block /\
  (let* ks := kuz_new kuz_test_key in
   let* c := kuz_encrypt ks kuz_test_block in
   let* p := kuz_decrypt ks c in Ok (c, p)) =
  Ok (int_to_bytearray 0x7f679d90bebc24305a468d42b9d4edcd 16, kuz_test_block).
Proof. split; [concrete_bytes|]. split; [concrete_bytes|]. vm_compute. reflexivity. Qed.

Theorem C11_kuznechik_conforms : forall key b, bytes_len 32 key -> bytes_len 16 b ->
  exists ks, kuz_new key = Ok ks /\
    kuz_encrypt ks b = Ok (spec_kuz_encrypt key b) /\ kuz_decrypt ks b = Ok (spec_kuz_decrypt key b).
Proof.
  intros key b Hk Hb. destruct (kuz_new_total key Hk) as [ks E]. exists ks.
  exact (conj E (kuz_conforms key ks b Hk E Hb)).
Qed.
Print Assumptions C11_kuznechik_conforms.

Example C11_example : spec_kuz_encrypt kuz_test_key kuz_test_block = int_to_bytearray 0x7f679d90bebc24305a468d42b9d4edcd 16.
Proof. vm_compute. reflexivity. Qed.

Theorem C12_magma_inverse : forall key b, bytes_len 32 key -> bytes_len 8 b ->
  exists ks, magma_new key = Ok ks /\
    (exists c, magma_encrypt ks b = Ok c /\ magma_decrypt ks c = Ok b) /\
    (exists c, magma_decrypt ks b = Ok c /\ magma_encrypt ks c = Ok b).
Proof.
  intros key b Hk Hb. destruct (magma_new_total key Hk) as [ks E]. exists ks.
  exact (conj E (magma_roundtrip key ks b Hk E Hb)).
Qed.
Print Assumptions C12_magma_inverse.

Example C12_example : bytes_len 32 magma_test_key /\ bytes_len 8 magma_test_block /\
  (let* ks := magma_new magma_test_key in
   let* c := magma_encrypt ks magma_test_block in
   let* p := magma_decrypt ks c in Ok (c, p)) =
  Ok (int_to_bytearray 0x4ee901e5c2d8ca3d 8, magma_test_block).
Proof. split; [concrete_bytes|]. split; [concrete_bytes|]. vm_compute. reflexivity. Qed.

Theorem C13_magma_conforms : forall key b, bytes_len 32 key -> bytes_len 8 b ->
  exists ks, magma_new key = Ok ks /\
    magma_encrypt ks b =
      Ok (int_to_bytearray (spec_magma_encrypt (bytearray_to_int key) (bytearray_to_int b)) 8) /\
    magma_decrypt ks b =
      Ok (int_to_bytearray (spec_magma_decrypt (bytearray_to_int key) (bytearray_to_int b)) 8).
Proof.
  intros key b Hk Hb. destruct (magma_new_total key Hk) as [ks E]. exists ks.
  exact (conj E (magma_conforms key ks b Hk E Hb)).
Qed.
Print Assumptions C13_magma_conforms.

Example C13_example : spec_magma_encrypt 0xffeeddccbbaa99887766554433221100f0f1f2f3f4f5f6f7f8f9fafbfcfdfeff
  0xfedcba9876543210 = 0x4ee901e5c2d8ca3d.
Proof. vm_compute. reflexivity. Qed.

Theorem C14_kuznechik_wrong_size : forall key ks b,
  bytes_len 32 key -> kuz_new key = Ok ks -> bytes_ok b ->
  (len b < 16 -> kuz_encrypt ks b = Err IndexError /\ kuz_decrypt ks b = Err IndexError) /\
  (16 <= len b -> kuz_encrypt ks b = kuz_encrypt ks (firstn 16 b) /\
                  kuz_decrypt ks b = kuz_decrypt ks (firstn 16 b)).
Proof. exact kuz_wrong_size. Qed.
Print Assumptions C14_kuznechik_wrong_size.

Theorem C14_magma_wrong_size : forall key ks b,
  bytes_len 32 key -> magma_new key = Ok ks -> bytes_ok b ->
  (len b < 8 -> magma_encrypt ks b = Err IndexError /\ magma_decrypt ks b = Err IndexError) /\
  (8 <= len b -> magma_encrypt ks b = magma_encrypt ks (firstn 8 b) /\
                 magma_decrypt ks b = magma_decrypt ks (firstn 8 b)).
Proof. exact magma_wrong_size. Qed.
Print Assumptions C14_magma_wrong_size.

Example C14_example :
  (let* ks := kuz_new kuz_test_key in kuz_encrypt ks (firstn 15 kuz_test_block)) = Err IndexError /\
  (let* ks := kuz_new kuz_test_key in kuz_encrypt ks (kuz_test_block ++ [1; 2])) =
    Ok (int_to_bytearray 0x7f679d90bebc24305a468d42b9d4edcd 16) /\
  (let* ks := magma_new magma_test_key in magma_decrypt ks []) = Err IndexError.
Proof. vm_compute. repeat split. Qed.

Theorem C15_kuznechik_output : forall key ks b,
  bytes_len 32 key -> kuz_new key = Ok ks -> bytes_ok b -> 16 <= len b ->
  (exists c, kuz_encrypt ks b = Ok c /\ bytes_len 16 c) /\ (exists c, kuz_decrypt ks b = Ok c /\ bytes_len 16 c).
Proof. exact kuz_output. Qed.
Print Assumptions C15_kuznechik_output.

Theorem C15_magma_output : forall key ks b,
  bytes_len 32 key -> magma_new key = Ok ks -> bytes_ok b -> 8 <= len b ->
  (exists c, magma_encrypt ks b = Ok c /\ bytes_len 8 c) /\ (exists c, magma_decrypt ks b = Ok c /\ bytes_len 8 c).
Proof. exact magma_output. Qed.
Print Assumptions C15_magma_output.

Example C15_example : bytes_ok kuz_test_block /\ 16 <= len kuz_test_block /\ bytes_ok magma_test_block /\ 8 <= len magma_test_block.
Proof. split; [concrete_bytes|]. split; [vm_compute; discriminate|]. split; [concrete_bytes|vm_compute; discriminate]. Qed.
