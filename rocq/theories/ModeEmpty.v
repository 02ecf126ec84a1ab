(** * The modes with an empty initialization vector, and with data that are not bytes *)
From Verif Require Import PyBase PyFacts PyState Utils UtilsFacts CipherObj Modes Mac.
From Verif Require Import SpecModes CipherLemmas CipherObjFacts ModeFacts CtrFacts ModeSpecFacts ModeLemmas ModeSem.

Section Empty.
  Variable o : mode_obj.
  Hypothesis Hc : co_ok (o_cipher o).
  Hypothesis He : o_init_vect o = [].

  Lemma gamma_empty : _get_gamma o = (Err IndexError, o).
  Proof.
    unfold _get_gamma, bindM, getM, liftM. rewrite He. change (py_slice (@nil Z) 0 (block_size o)) with (py_slice (@nil Z) 0 (bs (o_cipher o))).
    replace (py_slice (@nil Z) 0 (bs (o_cipher o))) with (@nil Z) by (unfold py_slice; now rewrite skipn_nil, firstn_nil).
    rewrite co_enc_short; [reflexivity | exact Hc | constructor | apply bs_pos].
  Qed.

  (** A loop whose first iteration raises. *)
  Lemma forM_fail {A B} (xs : list A) (acc : B) body e : xs <> [] ->
    (forall x acc, body x acc o = (Err e, o)) -> forM xs acc body o = (Err e, o).
  Proof. intros Hne Hb. destruct xs as [|x xs]; [contradiction|]. cbn [forM]. unfold bindM. now rewrite Hb. Qed.

  Lemma final_empty {A} data (k : bytes -> M mode_obj A) : bindM (_final_cipher data) k o = (Err IndexError, o).
  Proof. unfold bindM at 1, _final_cipher, bindM at 1. now rewrite gamma_empty. Qed.

  Lemma stream_empty data (body : Z -> bytes -> M mode_obj bytes) : data <> [] ->
    (forall x acc, body x acc o = (Err IndexError, o)) ->
    (let! result := forM (py_range 0 (_get_num_block (block_size o) data) 1) [] body in
     if negb (len data mod block_size o =? 0)
     then let! f := _final_cipher data in retM (result ++ f)
     else retM result) o = (Err IndexError, o).
  Proof.
    intros Hne Hb. destruct (py_range 0 (_get_num_block (block_size o) data) 1) as [|x xs] eqn:Er.
    - unfold bindM at 1. cbn [forM]. unfold retM at 1.
      assert (Hm : len data mod block_size o <> 0).
      { intros Hm. pose proof (bs_pos (o_cipher o)) as Hp. fold (block_size o) in Hp.
        assert (H1 : 0 < len data) by (destruct data; [contradiction | rewrite len_cons; pose proof (len_nonneg data); lia]).
        assert (H2 : In 0 (py_range 0 (_get_num_block (block_size o) data) 1)).
        { apply in_py_range. unfold _get_num_block. split; [lia|].
          pose proof (Z.div_mod (len data) (block_size o)). nia. }
        rewrite Er in H2. destruct H2. }
      replace (len data mod block_size o =? 0) with false by lia. cbn [negb]. apply final_empty.
    - unfold bindM at 1. rewrite (forM_fail (x :: xs) [] body IndexError); [reflexivity | discriminate | exact Hb].
  Qed.

  Lemma cfb_enc_empty m : o_class o = CFB -> m <> [] -> encrypt (VBytes m) o = (Err IndexError, o).
  Proof.
    intros Hcl Hne. unfold encrypt, bindM at 1, getM at 1. rewrite Hcl. unfold cfb_encrypt, check_plaintext.
    unfold bindM at 1, retM at 1, bindM at 1, getM at 1. apply stream_empty; [exact Hne|].
    intros x acc. unfold bindM at 1. now rewrite gamma_empty.
  Qed.
  Lemma cfb_dec_empty m : o_class o = CFB -> m <> [] -> decrypt (VBytes m) o = (Err IndexError, o).
  Proof.
    intros Hcl Hne. unfold decrypt, bindM at 1, getM at 1. rewrite Hcl. unfold cfb_decrypt, check_ciphertext.
    unfold bindM at 1, retM at 1, bindM at 1, getM at 1. apply stream_empty; [exact Hne|].
    intros x acc. unfold bindM at 1. now rewrite gamma_empty.
  Qed.
  Lemma ofb_enc_empty m : o_class o = OFB -> m <> [] -> encrypt (VBytes m) o = (Err IndexError, o).
  Proof.
    intros Hcl Hne. unfold encrypt, bindM at 1, getM at 1. rewrite Hcl. unfold ofb_encrypt, check_plaintext.
    unfold bindM at 1, retM at 1, bindM at 1, getM at 1. apply stream_empty; [exact Hne|].
    intros x acc. unfold bindM at 1. now rewrite gamma_empty.
  Qed.

  Lemma cbc_enc_empty p m : o_class o = CBC -> o_pad_mode o = pad_code p -> bytes_ok m ->
    encrypt (VBytes m) o = (Err IndexError, o).
  Proof.
    intros Hcl Hp Hm. unfold encrypt, bindM at 1, getM at 1. rewrite Hcl. unfold cbc_encrypt, padding_encrypt, check_plaintext.
    unfold bindM at 1. unfold bindM at 1. unfold retM at 1. unfold bindM at 1, getM at 1. unfold retM at 1.
    unfold bindM at 1, getM at 1. rewrite Hp. change (_set_padding (block_size o) m (pad_code p)) with (pad (bs (o_cipher o)) (pad_code p) m).
    rewrite pad_ok. destruct (padded_blocks (o_cipher o) p m Hm) as (bl & E & Hne & HF & _ & Hcut).
    change (block_size o) with (bs (o_cipher o)). rewrite (cut_num _ _ _ _ (bs_pos (o_cipher o)) Hcut).
    apply forM_fail.
    - destruct bl as [|b bl]; [contradiction|]. rewrite py_range_cons by (rewrite len_cons; pose proof (len_nonneg bl); lia). discriminate.
    - intros x acc. unfold bindM at 1, getM at 1. rewrite He.
      replace (py_slice (@nil Z) 0 (bs (o_cipher o))) with (@nil Z) by (unfold py_slice; now rewrite skipn_nil, firstn_nil).
      cbn [add_xor]. unfold bindM at 1, liftM. rewrite co_enc_short; [reflexivity | exact Hc | constructor | apply bs_pos].
  Qed.

  (** Decryption in CBC mode: the first block only fills the register. *)
  Lemma set_init_vect_empty d : block (o_cipher o) d -> _set_init_vect d o = (Ok tt, set_iv o d).
  Proof.
    intros [Hd _]. unfold _set_init_vect, bindM, getM, putM. f_equal. f_equal. rewrite He.
    pose proof (bs_pos (o_cipher o)) as Hp. fold (block_size o) in *. change (len (@nil Z)) with 0.
    replace (py_slice (@nil Z) (block_size o) 0) with (@nil Z) by (unfold py_slice; now rewrite skipn_nil, firstn_nil).
    assert (HS : forall a b v, py_slice_set (@nil Z) a b v = v).
    { intros a b v. unfold py_slice_set. now rewrite firstn_nil, skipn_nil, app_nil_r. }
    now rewrite !HS.
  Qed.
  Lemma cbc_dec_empty d : o_class o = CBC -> bytes_ok d ->
    decrypt (VBytes d) o =
    match whole (nbs (o_cipher o)) d with
    | [] => (Ok [], o)
    | c1 :: cs => (Ok (concat (cbc_dec (oD (o_cipher o)) [c1] cs)), set_iv o (concat (shift [c1] cs)))
    end /\
    match whole (nbs (o_cipher o)) d with
    | [] => True
    | c1 :: cs => reg (set_iv o (concat (shift [c1] cs))) (shift [c1] cs)
    end.
  Proof.
    intros Hcl Hd. unfold decrypt, bindM at 1, getM at 1. rewrite Hcl. unfold cbc_decrypt, check_ciphertext.
    unfold bindM at 1. unfold retM at 1. unfold bindM at 1, getM at 1.
    destruct (data_cut (o_cipher o) d Hd) as (bl & t & Hcut & HF & _). rewrite (whole_cut _ _ _ _ Hcut).
    pose proof (forM_blocks _ _ _ _ [] (cbc_dec_body (block_size o)) o (bs_pos (o_cipher o)) Hcut) as HL.
    cbn [app] in HL.
    destruct bl as [|c1 cs]; [split; [exact HL | exact I]|].
    inversion HF as [|? ? Hc1 Hcs]; subst.
    assert (HR : reg (set_iv o c1) [c1]).
    { split; [cbn; now rewrite app_nil_r|]. split; [discriminate|]. cbn. constructor; [exact Hc1 | constructor]. }
    destruct (run_loop0 (set_iv o c1) (cbc_dec_body (block_size o))
      (fun R b => bxor (oD (o_cipher o) b) (hd [] R)) (fun R b => b) cs
      (fun R iv b HR Hb => cbc_dec_step (set_iv o iv) R b Hc HR Hb) [c1] [] HR Hcs) as (Hrun & _ & Hreg).
    destruct (run_cbc_dec (oD (o_cipher o)) [c1] cs) as [E1 E2]. rewrite E2 in Hrun, Hreg. rewrite E1 in Hrun.
    split; [|exact Hreg]. etransitivity; [exact HL|]. cbn [forM]. unfold bindM at 1.
    assert (Hfirst : cbc_dec_body (block_size o) c1 [] o = (Ok [], set_iv o c1)).
    { unfold cbc_dec_body, bindM at 1, getM, bindM at 1, liftM. destruct (co_dec _ _ Hc Hc1) as [-> _]. rewrite He.
      replace (py_slice (@nil Z) 0 (block_size o)) with (@nil Z) by (unfold py_slice; now rewrite skipn_nil, firstn_nil).
      cbn [add_xor app]. unfold bindM. now rewrite set_init_vect_empty. }
    rewrite Hfirst. exact Hrun.
  Qed.
  Lemma stream_nil : (o_class o = CFB \/ o_class o = OFB) ->
    encrypt (VBytes []) o = (Ok [], o) /\ decrypt (VBytes []) o = (Ok [], o).
  Proof.
    pose proof (bs_pos (o_cipher o)) as Hp. fold (block_size o) in Hp.
    assert (E1 : _get_num_block (block_size o) [] = 0) by (unfold _get_num_block; apply Z.div_0_l; lia).
    assert (E2 : len (@nil Z) mod block_size o =? 0 = true) by (change (len (@nil Z)) with 0; rewrite Z.mod_0_l; lia).
    intros [Hcl|Hcl]; unfold encrypt, decrypt, bindM at 1 2, getM at 1 2; rewrite Hcl;
    unfold cfb_encrypt, cfb_decrypt, ofb_decrypt, ofb_encrypt, check_plaintext, check_ciphertext, bindM, retM, getM;
    rewrite E1, E2; cbn; auto.
  Qed.
End Empty.

(** ** Data that are not bytes: the object is cleared. *)
Definition not_bytes (d : pyval) : Prop := match d with VBytes _ => False | _ => True end.

Lemma clear_ok o : co_ok (o_cipher o) ->
  exists c, clear o = (Ok tt, set_cipher o c) /\ co_ok c /\ co_alg c = co_alg (o_cipher o) /\
    forall b, block (o_cipher o) b ->
      oE c b = oE (cleared_obj (co_alg (o_cipher o))) b /\ oD c b = oD (cleared_obj (co_alg (o_cipher o))) b.
Proof.
  intros Hc. destruct (co_clear_ok _ Hc) as (c & E & H1 & H2 & H3). exists c.
  unfold clear, bindM, getM, liftM, putM. rewrite E. auto.
Qed.

Lemma enc_not_bytes o d : not_bytes d -> encrypt d o =
  match clear o with
  | (Ok _, o') => (Err (GOSTCipherError "GOSTCipherError: invalid plaintext data"), o')
  | (Err e, o') => (Err e, o')
  end.
Proof.
  intros Hd. unfold encrypt, bindM, getM.
  destruct d; [destruct Hd| | |]; destruct (o_class o);
    unfold ecb_encrypt, cbc_encrypt, padding_encrypt, cfb_encrypt, ofb_encrypt, ctr_encrypt, check_plaintext, bindM, raiseM;
    destruct (clear o) as [[?|?] ?]; reflexivity.
Qed.
Lemma dec_not_bytes o d : not_bytes d -> decrypt d o =
  match clear o with
  | (Ok _, o') => (Err (GOSTCipherError "GOSTCipherError: invalid ciphertext data"), o')
  | (Err e, o') => (Err e, o')
  end.
Proof.
  intros Hd. unfold decrypt, bindM, getM.
  destruct d; [destruct Hd| | |]; destruct (o_class o);
    unfold ecb_decrypt, cbc_decrypt, cfb_decrypt, ofb_decrypt, ctr_decrypt, check_ciphertext, bindM, raiseM;
    destruct (clear o) as [[?|?] ?]; reflexivity.
Qed.
