(** * What [encrypt] and [decrypt] compute, class by class, from any valid state *)
From Verif Require Import PyBase PyFacts PyState Utils UtilsFacts CipherObj Modes Mac.
From Verif Require Import SpecModes CipherLemmas CipherObjFacts ModeFacts CtrFacts ModeSpecFacts ModeLemmas.

Lemma whole_cut c data bl t : cut (bs c) data bl t -> whole (nbs c) data = bl.
Proof.
  intros Hc. pose proof (bs_pos c) as Hp. unfold whole, nbs. rewrite (blocks_cut _ _ _ _ Hp Hc).
  assert (HL := cut_len _ _ _ _ Hc). destruct Hc as (_ & _ & Ht). pose proof (len_nonneg t).
  assert (E : (List.length data / Z.to_nat (bs c))%nat = List.length bl).
  { unfold len in *. assert (List.length data = List.length bl * Z.to_nat (bs c) + List.length t)%nat by nia.
    rewrite H0. rewrite Nat.div_add_l by lia. rewrite Nat.div_small by lia. lia. }
  rewrite E, firstn_app, Nat.sub_diag, firstn_O, app_nil_r. apply firstn_all.
Qed.

Lemma whole_forall c data : bytes_ok data -> Forall (block c) (whole (nbs c) data).
Proof.
  intros Hok. destruct (data_cut c data Hok) as (bl & t & Hc & HF & _). now rewrite (whole_cut c data bl t Hc).
Qed.
Lemma blocks_concat c data : bytes_ok data -> concat (blocks (nbs c) data) = data.
Proof. intros Hok. destruct (data_cut c data Hok) as (bl & t & _ & _ & _ & _ & E & ->). now symmetry. Qed.

Section Sem.
  Variable o : mode_obj.
  Hypothesis Hc : co_ok (o_cipher o).
  Let c := o_cipher o.
  Let n := nbs c.

  Lemma sem_ecb_enc p m : o_class o = ECB -> o_pad_mode o = pad_code p -> bytes_ok m ->
    encrypt (VBytes m) o = (Ok (concat (ecb_enc (oE c) (blocks n (padded p n m)))), o).
  Proof.
    intros Hcl Hp Hm. unfold encrypt, bindM, getM. rewrite Hcl.
    destruct (padded_blocks c p m Hm) as (bl & E & _ & HF & HB & _). unfold n. rewrite HB.
    apply ecb_encrypt_ok; auto. rewrite Hp. fold c. unfold block_size. now rewrite pad_ok.
  Qed.
  Lemma sem_ecb_dec d : o_class o = ECB -> bytes_ok d ->
    decrypt (VBytes d) o = (Ok (concat (ecb_dec (oD c) (whole n d))), o).
  Proof.
    intros Hcl Hd. unfold decrypt, bindM, getM. rewrite Hcl.
    destruct (data_cut c d Hd) as (bl & t & Hcut & HF & _). unfold n. rewrite (whole_cut _ _ _ _ Hcut).
    now apply ecb_decrypt_ok with t.
  Qed.

  Section Reg.
    Variable R : list bytes.
    Hypothesis HR : reg o R.

    Lemma sem_cbc_enc p m : o_class o = CBC -> o_pad_mode o = pad_code p -> bytes_ok m ->
      let out := cbc_enc (oE c) R (blocks n (padded p n m)) in
      encrypt (VBytes m) o = (Ok (concat out), set_iv o (concat (shift R out))) /\
      reg (set_iv o (concat (shift R out))) (shift R out).
    Proof.
      intros Hcl Hp Hm. unfold encrypt, bindM, getM. rewrite Hcl.
      destruct (padded_blocks c p m Hm) as (bl & E & _ & HF & HB & _). unfold n. rewrite HB.
      apply cbc_encrypt_ok; auto. rewrite Hp. unfold block_size. fold c. now rewrite pad_ok.
    Qed.
    Lemma sem_cbc_dec d : o_class o = CBC -> bytes_ok d ->
      decrypt (VBytes d) o = (Ok (concat (cbc_dec (oD c) R (whole n d))), set_iv o (concat (shift R (whole n d)))) /\
      reg (set_iv o (concat (shift R (whole n d)))) (shift R (whole n d)).
    Proof.
      intros Hcl Hd. unfold decrypt, bindM, getM. rewrite Hcl.
      destruct (data_cut c d Hd) as (bl & t & Hcut & HF & _). unfold n. rewrite (whole_cut _ _ _ _ Hcut).
      now apply cbc_decrypt_ok with t.
    Qed.
    Lemma sem_cfb_enc m : o_class o = CFB -> bytes_ok m ->
      let fb := cfb_enc (oE c) R (whole n m) in
      encrypt (VBytes m) o = (Ok (concat (cfb_enc (oE c) R (blocks n m))), set_iv o (concat (shift R fb))) /\
      reg (set_iv o (concat (shift R fb))) (shift R fb).
    Proof.
      intros Hcl Hd. unfold encrypt, bindM, getM. rewrite Hcl.
      destruct (data_cut c m Hd) as (bl & t & Hcut & HF & _ & _ & _ & HB). unfold n. rewrite (whole_cut _ _ _ _ Hcut), HB.
      now apply cfb_encrypt_ok.
    Qed.
    Lemma sem_cfb_dec d : o_class o = CFB -> bytes_ok d ->
      decrypt (VBytes d) o = (Ok (concat (cfb_dec (oE c) R (blocks n d))), set_iv o (concat (shift R (whole n d)))) /\
      reg (set_iv o (concat (shift R (whole n d)))) (shift R (whole n d)).
    Proof.
      intros Hcl Hd. unfold decrypt, bindM, getM. rewrite Hcl.
      destruct (data_cut c d Hd) as (bl & t & Hcut & HF & _ & _ & _ & HB). unfold n. rewrite (whole_cut _ _ _ _ Hcut), HB.
      now apply cfb_decrypt_ok.
    Qed.
    Lemma sem_ofb_enc m : o_class o = OFB -> bytes_ok m ->
      let fb := ofb_gamma (oE c) R (List.length (whole n m)) in
      encrypt (VBytes m) o = (Ok (concat (ofb (oE c) R (blocks n m))), set_iv o (concat (shift R fb))) /\
      reg (set_iv o (concat (shift R fb))) (shift R fb).
    Proof.
      intros Hcl Hd. unfold encrypt, bindM, getM. rewrite Hcl.
      destruct (data_cut c m Hd) as (bl & t & Hcut & HF & _ & _ & _ & HB). unfold n. rewrite (whole_cut _ _ _ _ Hcut), HB.
      now apply ofb_encrypt_ok.
    Qed.
  End Reg.

  Lemma sem_ofb_dec d : o_class o = OFB -> decrypt (VBytes d) o = encrypt (VBytes d) o.
  Proof. intros Hcl. unfold decrypt, encrypt, bindM, getM. rewrite Hcl. reflexivity. Qed.
  Lemma sem_ctr_dec d : o_class o = CTR -> decrypt (VBytes d) o = encrypt (VBytes d) o.
  Proof. intros Hcl. unfold decrypt, encrypt, bindM, getM. rewrite Hcl. reflexivity. Qed.
  Lemma sem_ctr_enc m : o_class o = CTR -> block c (o_counter o) -> bytes_ok m ->
    encrypt (VBytes m) o =
    (Ok (concat (ctr_run (oE c) (o_counter o) 0 (blocks n m))),
     set_counter o (ctr_next (o_counter o) (List.length (blocks n m)))).
  Proof.
    intros Hcl Hctr Hd. unfold encrypt, bindM, getM. rewrite Hcl.
    destruct (data_cut c m Hd) as (bl & t & Hcut & HF & _ & _ & _ & HB). unfold n. rewrite HB.
    now apply ctr_encrypt_ok.
  Qed.
End Sem.

(** ** Round trips, from the same state *)

Section Roundtrip.
  Variable o : mode_obj.
  Hypothesis Hc : co_ok (o_cipher o).
  Let c := o_cipher o.
  Let stays b (H : block c b) : block c (oE c b) := oE_block c b Hc H.
  Let inv b (H : block c b) : oD c (oE c b) = b := oD_oE c b Hc H.

  Lemma rt_ecb p m : o_class o = ECB -> o_pad_mode o = pad_code p -> bytes_ok m ->
    exists ct, encrypt (VBytes m) o = (Ok ct, o) /\ bytes_ok ct /\ decrypt (VBytes ct) o = (Ok (padded p (nbs c) m), o).
  Proof.
    intros Hcl Hp Hm. rewrite (sem_ecb_enc o Hc p m Hcl Hp Hm). fold c. eexists; split; [reflexivity|].
    destruct (padded_blocks c p m Hm) as (bl & E & _ & HF & HB & _). rewrite HB.
    assert (HF' : Forall (block c) (ecb_enc (oE c) bl)).
    { clear -HF stays. induction HF; [constructor|]. cbn. constructor; auto. }
    assert (Hok := concat_ok _ _ HF'). split; [exact Hok|].
    rewrite (sem_ecb_dec o Hc _ Hcl Hok). fold c.
    rewrite (whole_cut _ _ _ [] (cut_whole _ _ (blocks_lens _ _ HF') (bs_pos c))).
    rewrite (ecb_inv (block c) (oE c) (oD c)); auto. now rewrite E.
  Qed.
  Lemma rt_cbc R p m : o_class o = CBC -> o_pad_mode o = pad_code p -> reg o R -> bytes_ok m ->
    exists ct o1 o2, encrypt (VBytes m) o = (Ok ct, o1) /\ bytes_ok ct /\ decrypt (VBytes ct) o = (Ok (padded p (nbs c) m), o2).
  Proof.
    intros Hcl Hp HR Hm. destruct (sem_cbc_enc o Hc R HR p m Hcl Hp Hm) as [-> _]. fold c.
    destruct (padded_blocks c p m Hm) as (bl & E & _ & HF & HB & _). rewrite HB.
    assert (HR' := HR). destruct HR' as (HR1 & HR2 & HR3).
    assert (HF' : Forall (block c) (cbc_enc (oE c) R bl)) by (apply cbc_enc_blk; auto using bxor_block).
    assert (Hok := concat_ok _ _ HF'). eexists _, _, _; split; [reflexivity|]. split; [exact Hok|].
    destruct (sem_cbc_dec o Hc R HR _ Hcl Hok) as [-> _]. fold c.
    rewrite (whole_cut _ _ _ [] (cut_whole _ _ (blocks_lens _ _ HF') (bs_pos c))).
    rewrite (cbc_inv (nbs c) (block c) (oE c) (oD c)); auto using bxor_block, block_length. now rewrite E.
  Qed.

  Lemma stream_ok (ob : list bytes) (t t' : bytes) : Forall (block c) ob -> List.length t' = List.length t ->
    (List.length t < nbs c)%nat -> bytes_ok t' -> bytes_ok (concat (ob ++ opt_block t')) /\
    blocks (nbs c) (concat (ob ++ opt_block t')) = ob ++ opt_block t' /\
    whole (nbs c) (concat (ob ++ opt_block t')) = ob.
  Proof.
    intros HF Hl Ht Hok. assert (Hcut : cut (bs c) (concat (ob ++ opt_block t')) ob t') by (apply cut_of; auto; lia).
    split; [|split].
    - rewrite concat_app, concat_opt. apply bytes_ok_app. split; [now apply (concat_ok (bs c)) | exact Hok].
    - apply (blocks_cut _ _ _ _ (bs_pos c) Hcut).
    - apply (whole_cut _ _ _ _ Hcut).
  Qed.

  Lemma rt_cfb R m : o_class o = CFB -> reg o R -> bytes_ok m ->
    exists ct o1 o2, encrypt (VBytes m) o = (Ok ct, o1) /\ bytes_ok ct /\ decrypt (VBytes ct) o = (Ok m, o2).
  Proof.
    intros Hcl HR Hm. destruct (sem_cfb_enc o Hc R HR m Hcl Hm) as [-> _]. fold c.
    destruct (data_cut c m Hm) as (bl & t & Hcut & HF & Htok & Ht & E & HB). rewrite HB.
    assert (HR' := HR). destruct HR' as (HR1 & HR2 & HR3).
    destruct (cfb_enc_split c Hc R HR2 HR3 bl t HF Ht) as (t' & HS & Hl & Ht' & HF').
    destruct (stream_ok _ t t' HF' Hl Ht (Ht' Htok)) as (Hok & HB' & _).
    rewrite HS. eexists _, _, _; split; [reflexivity|]. split; [exact Hok|].
    destruct (sem_cfb_dec o Hc R HR _ Hcl Hok) as [-> _]. fold c. rewrite HB', <- HS.
    rewrite (cfb_inv (nbs c) (block c) (oE c) (oD c)); auto using bxor_block, block_length. now rewrite E.
  Qed.
  Lemma rt_ofb R m : o_class o = OFB -> reg o R -> bytes_ok m ->
    exists ct o1 o2, encrypt (VBytes m) o = (Ok ct, o1) /\ bytes_ok ct /\ decrypt (VBytes ct) o = (Ok m, o2).
  Proof.
    intros Hcl HR Hm. destruct (sem_ofb_enc o Hc R HR m Hcl Hm) as [-> _]. fold c.
    destruct (data_cut c m Hm) as (bl & t & Hcut & HF & Htok & Ht & E & HB). rewrite HB.
    assert (HR' := HR). destruct HR' as (HR1 & HR2 & HR3).
    destruct (ofb_split c Hc R HR2 HR3 bl t HF Ht) as (t' & HS & Hl & Ht' & HF').
    destruct (stream_ok _ t t' HF' Hl Ht (Ht' Htok)) as (Hok & HB' & _).
    rewrite HS. eexists _, _, _; split; [reflexivity|]. split; [exact Hok|]. rewrite sem_ofb_dec by exact Hcl.
    destruct (sem_ofb_enc o Hc R HR _ Hcl Hok) as [-> _]. fold c. rewrite HB', <- HS.
    rewrite (ofb_inv (nbs c) (block c) (oE c) (oD c)); auto using bxor_block, block_length. now rewrite E.
  Qed.
  Lemma rt_ctr m : o_class o = CTR -> block c (o_counter o) -> bytes_ok m ->
    exists ct o1 o2, encrypt (VBytes m) o = (Ok ct, o1) /\ bytes_ok ct /\ decrypt (VBytes ct) o = (Ok m, o2).
  Proof.
    intros Hcl HR Hm. rewrite (sem_ctr_enc o Hc m Hcl HR Hm). fold c.
    destruct (data_cut c m Hm) as (bl & t & Hcut & HF & Htok & Ht & E & HB). rewrite HB.
    destruct (ctr_split c Hc (o_counter o) bl t HR HF Ht) as (t' & HS & Hl & Ht' & HF').
    destruct (stream_ok _ t t' HF' Hl Ht (Ht' Htok)) as (Hok & HB' & _).
    rewrite HS. eexists _, _, _; split; [reflexivity|]. split; [exact Hok|]. rewrite sem_ctr_dec by exact Hcl.
    rewrite (sem_ctr_enc o Hc _ Hcl HR Hok). fold c. rewrite HB', <- HS.
    rewrite (ctr_inv (nbs c) (block c) (oE c) (oD c)); auto using bxor_block, block_length, ctr_next_block. now rewrite E.
  Qed.
End Roundtrip.
