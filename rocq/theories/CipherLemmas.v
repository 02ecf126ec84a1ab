(** * The statements of C10-C15 derived from the refinement lemmas *)
From Verif Require Import PyBase PyFacts Utils UtilsFacts Kuznechik Magma SpecKuznechik SpecMagma.
From Verif Require Import KuzFacts KuzFacts2 MagmaFacts.

(** A byte string of exactly [n] bytes. *)
Definition bytes_len (n : Z) (b : bytes) : Prop := len b = n /\ bytes_ok b.

(** Decision procedure, used in the examples. *)
Definition bytes_okb (b : bytes) : bool := forallb (fun x => (0 <=? x) && (x <? 256)) b.
Lemma bytes_okb_ok b : bytes_okb b = true -> bytes_ok b.
Proof.
  intros H. apply Forall_forall. intros x Hx. unfold bytes_okb in H. rewrite forallb_forall in H.
  specialize (H x Hx). unfold byte_ok. lia.
Qed.
Lemma bytes_len_ok n b : (len b =? n) && bytes_okb b = true -> bytes_len n b.
Proof.
  intros H. apply andb_true_iff in H as [H1 H2].
  split; [now apply Z.eqb_eq | now apply bytes_okb_ok].
Qed.
Ltac concrete_bytes :=
  first [apply bytes_len_ok | apply bytes_okb_ok]; vm_compute; reflexivity.

Lemma kuz_new_total key : bytes_len 32 key -> exists ks, kuz_new key = Ok ks.
Proof. intros Hk. rewrite kuz_new_ok by exact Hk. eauto. Qed.
Lemma magma_new_total key : bytes_len 32 key -> exists ks, magma_new key = Ok ks.
Proof. intros Hk. rewrite magma_new_ok by exact Hk. eauto. Qed.

Lemma kuz_new_good key ks : bytes_len 32 key -> kuz_new key = Ok ks -> kuz_keys ks.
Proof. intros Hk He. now destruct (kuz_new_keys key ks Hk He). Qed.
Lemma magma_new_good key ks : bytes_len 32 key -> magma_new key = Ok ks -> magma_keys ks.
Proof. intros Hk. rewrite magma_new_ok by exact Hk. intros [= <-]. now apply magma_key_list_keys. Qed.

Lemma kuz_roundtrip key ks b : bytes_len 32 key -> kuz_new key = Ok ks -> bytes_len 16 b ->
  (exists c, kuz_encrypt ks b = Ok c /\ kuz_decrypt ks c = Ok b) /\
  (exists c, kuz_decrypt ks b = Ok c /\ kuz_encrypt ks c = Ok b).
Proof.
  intros Hk He Hb. assert (Hg := kuz_new_good key ks Hk He). split.
  - destruct (kuz_inverse ks b Hg Hb) as (c & H1 & _ & H2). eauto.
  - destruct (kuz_inverse_dec ks b Hg Hb) as (c & H1 & _ & H2). eauto.
Qed.

Lemma magma_roundtrip key ks b : bytes_len 32 key -> magma_new key = Ok ks -> bytes_len 8 b ->
  (exists c, magma_encrypt ks b = Ok c /\ magma_decrypt ks c = Ok b) /\
  (exists c, magma_decrypt ks b = Ok c /\ magma_encrypt ks c = Ok b).
Proof.
  intros Hk He Hb. assert (Hg := magma_new_good key ks Hk He). split.
  - destruct (magma_inverse ks b Hg Hb) as (c & H1 & _ & H2). eauto.
  - destruct (magma_inverse_dec ks b Hg Hb) as (c & H1 & _ & H2). eauto.
Qed.

Lemma kuz_conforms key ks b : bytes_len 32 key -> kuz_new key = Ok ks -> bytes_len 16 b ->
  kuz_encrypt ks b = Ok (spec_kuz_encrypt key b) /\ kuz_decrypt ks b = Ok (spec_kuz_decrypt key b).
Proof.
  intros Hk He Hb. destruct (kuz_new_keys key ks Hk He) as (Hg & HF & Hr).
  rewrite kuz_encrypt_ok, kuz_decrypt_ok by auto using block_wide.
  rewrite map_firstn_blocks, firstn_block by auto. subst ks. split; reflexivity.
Qed.

Lemma magma_conforms key ks b : bytes_len 32 key -> magma_new key = Ok ks -> bytes_len 8 b ->
  magma_encrypt ks b =
    Ok (int_to_bytearray (spec_magma_encrypt (bytearray_to_int key) (bytearray_to_int b)) 8) /\
  magma_decrypt ks b =
    Ok (int_to_bytearray (spec_magma_decrypt (bytearray_to_int key) (bytearray_to_int b)) 8).
Proof.
  intros Hk He Hb. split.
  - destruct (magma_encrypt_spec key b ks Hk Hb He) as (c & -> & [Hl Hc] & <-).
    rewrite <- Hl. now rewrite of_int_to_int.
  - destruct (magma_decrypt_spec key b ks Hk Hb He) as (c & -> & [Hl Hc] & <-).
    rewrite <- Hl. now rewrite of_int_to_int.
Qed.

Lemma kuz_wrong_size key ks b : bytes_len 32 key -> kuz_new key = Ok ks -> bytes_ok b ->
  (len b < 16 -> kuz_encrypt ks b = Err IndexError /\ kuz_decrypt ks b = Err IndexError) /\
  (16 <= len b -> kuz_encrypt ks b = kuz_encrypt ks (firstn 16 b) /\
                  kuz_decrypt ks b = kuz_decrypt ks (firstn 16 b)).
Proof.
  intros Hk He Hb. assert (Hg := kuz_new_good key ks Hk He). split; intros Hl.
  - split; [now apply kuz_encrypt_short | now apply kuz_decrypt_short].
  - assert (Hw : wide b) by (split; auto).
    assert (Hf : block16 (firstn 16 b)) by now apply wide_first.
    rewrite !kuz_encrypt_ok, !kuz_decrypt_ok by auto using block_wide.
    rewrite firstn_firstn. change (Nat.min 16 16) with 16%nat. split; reflexivity.
Qed.

Lemma mpair_firstn b : mpair (firstn 8 b) = mpair b.
Proof.
  unfold mpair, wint. rewrite firstn_firstn, skipn_firstn_comm, firstn_firstn. change (Nat.min 4 8) with 4%nat. change (Nat.min 4 (8 - 4)) with 4%nat. reflexivity.
Qed.

Lemma magma_wrong_size key ks b : bytes_len 32 key -> magma_new key = Ok ks -> bytes_ok b ->
  (len b < 8 -> magma_encrypt ks b = Err IndexError /\ magma_decrypt ks b = Err IndexError) /\
  (8 <= len b -> magma_encrypt ks b = magma_encrypt ks (firstn 8 b) /\
                 magma_decrypt ks b = magma_decrypt ks (firstn 8 b)).
Proof.
  intros Hk He Hb. assert (Hg := magma_new_good key ks Hk He). split; intros Hl.
  - split; [now apply magma_encrypt_short | now apply magma_decrypt_short].
  - assert (Hw : wide8 b) by (split; auto).
    assert (Hf : wide8 (firstn 8 b)).
    { split; [now apply bytes_ok_firstn | unfold len in *; rewrite firstn_length; lia]. }
    rewrite !magma_encrypt_ok, !magma_decrypt_ok by auto. rewrite mpair_firstn. split; reflexivity.
Qed.

Lemma kuz_output key ks b : bytes_len 32 key -> kuz_new key = Ok ks -> bytes_ok b -> 16 <= len b ->
  (exists c, kuz_encrypt ks b = Ok c /\ bytes_len 16 c) /\ (exists c, kuz_decrypt ks b = Ok c /\ bytes_len 16 c).
Proof.
  intros Hk He Hb Hl. destruct (kuz_wrong_size key ks b Hk He Hb) as [_ H]. destruct (H Hl) as [-> ->].
  assert (Hg := kuz_new_good key ks Hk He).
  assert (Hf : block16 (firstn 16 b)) by (apply wide_first; split; auto). split.
  - destruct (kuz_inverse ks _ Hg Hf) as (c & H1 & H2 & _). eauto.
  - destruct (kuz_inverse_dec ks _ Hg Hf) as (c & H1 & H2 & _). eauto.
Qed.

Lemma magma_output key ks b : bytes_len 32 key -> magma_new key = Ok ks -> bytes_ok b -> 8 <= len b ->
  (exists c, magma_encrypt ks b = Ok c /\ bytes_len 8 c) /\ (exists c, magma_decrypt ks b = Ok c /\ bytes_len 8 c).
Proof.
  intros Hk He Hb Hl. assert (Hg := magma_new_good key ks Hk He).
  assert (Hw : wide8 b) by (split; auto).
  rewrite magma_encrypt_ok, magma_decrypt_ok by auto.
  split; eexists; (split; [reflexivity | apply mblock_block]).
Qed.
