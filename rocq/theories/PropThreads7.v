(** * Property C163: threads that share an object of the mode CBC or CFB *)
From Verif Require Import PyBase PyFacts PyState Utils UtilsFacts CipherObj Modes Mac SpecModes CipherLemmas CipherObjFacts ModeSpecFacts ModeFacts ModeLemmas ModeSem ModeMore ModeSim ModeExamples ModeProps MacMore ModeCross ModeCross2 MacKnown Threads ThreadFacts ThreadsModes ThreadModeFacts PropThreads.
Open Scope string_scope.
Open Scope list_scope.
Open Scope Z_scope.

(** C163. The calls, statement by statement, are the calls of the model. *)
Theorem C163_alone : forall data o, run (p_cbc_encrypt data) o = cbc_encrypt data o /\ run (p_cbc_decrypt data) o = cbc_decrypt data o /\ run (p_cfb_encrypt data) o = cfb_encrypt data o /\ run (p_cfb_decrypt data) o = cfb_decrypt data o.
Proof. intros data o. split; [apply cbc_encrypt_alone|]. split; [apply cbc_decrypt_alone|]. split; [apply cfb_encrypt_alone | apply cfb_decrypt_alone]. Qed.
Print Assumptions C163_alone.

(** Two threads that take turns encrypt messages of whole blocks with one new object: the second gets the ciphertext of a call alone; that of
    the first is decrypted, by an object in the state before the calls, to its message just if the messages are equal up to their last
    blocks; and blocks of the ciphertexts are equal just where blocks of the messages are. *)
Theorem C163_encrypt : forall f a key iv m1 m2 o, bytes_len 32 key -> blk (bsize a) iv -> in_blocks a m1 -> in_blocks a m2 -> List.length m1 = List.length m2 -> new (alg a) (VBytes key) (VInt (code f)) (with_iv iv) = Ok (NewMode o) ->
  let c2 := answer a (code f) key iv m2 in
  exists t c1 o', (forall n, (t <= n)%nat -> go (alternate n) [enc_thread f m1; enc_thread f m2] o = ([Ret c1; Ret c2], o')) /\
    (result (decrypt (VBytes c1) o) = Ok m1 <-> alike a m1 m2) /\
    (forall k, nth_error (blocks (bsize a) c1) k = nth_error (blocks (bsize a) c2) k <-> nth_error (blocks (bsize a) m1) k = nth_error (blocks (bsize a) m2) k).
Proof.
  intros f a key iv m1 m2 o Hk Hv Hm1 Hm2 HL HN c2. destruct (fresh_chained f a key iv o Hk Hv HN) as (HM & Hb & _). set (c := o_cipher o) in *. assert (Hc := proj1 HM).
  destruct (blocks_of f a key iv o Hk Hv HN m1 Hm1) as (E1 & F1 & B1). destruct (blocks_of f a key iv o Hk Hv HN m2 Hm2) as (E2 & F2 & B2). fold c in E1, F1, B1, E2, F2, B2. pose proof (same_count f a key iv o Hk Hv HN m1 m2 Hm1 Hm2 HL) as HLb. fold c in HLb.
  destruct (enc_together f a key iv o Hk Hv HN m1 m2 Hm1 Hm2 HL) as (o' & HK). fold c in HK. destruct (lock_ended _ _ _ _ _ _ HK) as (t & G).
  assert (EC : c2 = concat (own (e_of f c) iv (blocks (nbs c) m2))) by (unfold c2, answer; rewrite HN, (enc_alone f a key iv o Hk Hv HN m2 Hm2); reflexivity).
  assert (OK1 : Forall (block c) (mixed (e_of f c) iv (blocks (nbs c) m1) (blocks (nbs c) m2))) by (apply (mixed_ok (block c) (e_of f c) (d_of f c) (e_next f c) (d_next f c) (e_ok f c Hc) (d_ok f c Hc)); auto).
  assert (OK2 : Forall (block c) (own (e_of f c) iv (blocks (nbs c) m2))) by (apply (own_ok (block c) (e_of f c) (d_of f c) (e_next f c) (d_next f c) (e_ok f c Hc) (d_ok f c Hc)); auto).
  destruct (blocks_back c _ OK1) as [BB1 W1]. destruct (blocks_back c _ OK2) as [BB2 _].
  exists t, (concat (mixed (e_of f c) iv (blocks (nbs c) m1) (blocks (nbs c) m2))), o'. rewrite EC. split; [exact G|]. split.
  - pose proof (dec_alone f a key iv o Hk Hv HN _ W1) as ED. fold c in ED. rewrite ED, BB1. clear ED.
    assert (OK3 : Forall (block c) (own (d_of f c) iv (mixed (e_of f c) iv (blocks (nbs c) m1) (blocks (nbs c) m2)))) by (apply (own_ok (block c) (e_of f c) (d_of f c) (e_next f c) (d_next f c) (e_ok f c Hc) (d_ok f c Hc)); auto).
    pose proof (mixed_decrypts (block c) (e_of f c) (d_of f c) (e_next f c) (d_next f c) (e_ok f c Hc) (e_inj f c Hc) (d_sep f c Hc) (d_e f c Hc) _ _ iv iv HLb Hb Hb F1 F2) as HD.
    pose proof (alike_blocks a _ _ (block_lengths _ _ _ _ HM F1) (block_lengths _ _ _ _ HM F2)) as HA. rewrite <- E1, <- E2 in HA. rewrite <- HA. split.
    + intros E. injection E as E. apply (fun E => eq_trans E E1) in E. apply HD. apply (concat_same (bsize a)) in E; [exact E | destruct a; cbn; lia | exact (block_lengths _ _ _ _ HM OK3) | exact (block_lengths _ _ _ _ HM F1)].
    + intros R. destruct HD as [_ HD]. rewrite HD by (split; [now right | exact R]). now rewrite <- E1.
  - intros k. rewrite <- (made_nbs _ _ _ HM). rewrite BB1, BB2. exact (mixed_pattern (block c) (e_of f c) (e_next f c) (e_ok f c Hc) (e_inj f c Hc) _ _ iv k HLb Hb F1 F2).
Qed.
Print Assumptions C163_encrypt.
(** In CFB the sum of the ciphertexts is the sum of the messages: every block of gamma is used twice. *)
Theorem C163_cfb : forall a key iv m1 m2 o, bytes_len 32 key -> blk (bsize a) iv -> in_blocks a m1 -> in_blocks a m2 -> List.length m1 = List.length m2 -> new (alg a) (VBytes key) (VInt MODE_CFB) (with_iv iv) = Ok (NewMode o) ->
  exists t c1 c2 o', bxor c1 c2 = bxor m1 m2 /\ forall n, (t <= n)%nat -> go (alternate n) [p_cfb_encrypt (VBytes m1); p_cfb_encrypt (VBytes m2)] o = ([Ret c1; Ret c2], o').
Proof.
  intros a key iv m1 m2 o Hk Hv Hm1 Hm2 HL HN. destruct (fresh_chained Cfb a key iv o Hk Hv HN) as (HM & Hb & _). set (c := o_cipher o) in *. assert (Hc := proj1 HM).
  destruct (blocks_of Cfb a key iv o Hk Hv HN m1 Hm1) as (E1 & F1 & _). destruct (blocks_of Cfb a key iv o Hk Hv HN m2 Hm2) as (E2 & F2 & _). fold c in E1, F1, E2, F2. pose proof (same_count Cfb a key iv o Hk Hv HN m1 m2 Hm1 Hm2 HL) as HLb. fold c in HLb.
  destruct (enc_together Cfb a key iv o Hk Hv HN m1 m2 Hm1 Hm2 HL) as (o' & HK). fold c in HK. destruct (lock_ended _ _ _ _ _ _ HK) as (t & G). eexists t, _, _, o'. split; [|exact G].
  rewrite E1 at 2. rewrite E2 at 3. generalize dependent (blocks (nbs c) m2). intros ys _ F2 HLb _ _. revert HLb F1 F2. generalize (blocks (nbs c) m1). clear - Hc Hb. intros xs. revert ys iv Hb.
  induction xs as [|x xs IH]; intros [|y ys] v Hb HL F1 F2; try discriminate HL; [reflexivity|]. apply Forall_cons_iff in F1 as [Hx F1]. apply Forall_cons_iff in F2 as [Hy F2]. injection HL as HL. cbn [mixed own concat e_of cfb_e out next].
  assert (HE := oE_block _ _ Hc Hb). assert (H1 := xor_block _ _ _ HE Hx). assert (H2 := xor_block _ _ _ HE Hy).
  rewrite !bxor_eq, !add_xor_app by (rewrite ?(block_length _ _ H1), ?(block_length _ _ H2), ?(block_length _ _ Hx), ?(block_length _ _ Hy); reflexivity). f_equal.
  - rewrite (add_xor_comm (oE c v) x), <- add_xor_assoc. f_equal. apply add_xor_cancel. now apply (blen c).
  - pose proof (IH ys _ H2 HL F1 F2) as G. rewrite !bxor_eq in G. exact G.
Qed.
Print Assumptions C163_cfb.
(** Two threads that take turns decrypt with one new object: the second gets its message; the first just if the ciphertexts are equal up to their last blocks. *)
Theorem C163_decrypt : forall f a key iv c1 c2 o, bytes_len 32 key -> blk (bsize a) iv -> in_blocks a c1 -> in_blocks a c2 -> List.length c1 = List.length c2 -> new (alg a) (VBytes key) (VInt (code f)) (with_iv iv) = Ok (NewMode o) ->
  exists t p1 p2 o', (forall n, (t <= n)%nat -> go (alternate n) [dec_thread f c1; dec_thread f c2] o = ([Ret p1; Ret p2], o')) /\
    result (decrypt (VBytes c2) o) = Ok p2 /\ (result (decrypt (VBytes c1) o) = Ok p1 <-> alike a c1 c2).
Proof.
  intros f a key iv m1 m2 o Hk Hv Hm1 Hm2 HL HN. destruct (fresh_chained f a key iv o Hk Hv HN) as (HM & Hb & _). set (c := o_cipher o) in *. assert (Hc := proj1 HM).
  destruct (blocks_of f a key iv o Hk Hv HN m1 Hm1) as (E1 & F1 & B1). destruct (blocks_of f a key iv o Hk Hv HN m2 Hm2) as (E2 & F2 & B2). fold c in E1, F1, B1, E2, F2, B2. pose proof (same_count f a key iv o Hk Hv HN m1 m2 Hm1 Hm2 HL) as HLb. fold c in HLb.
  destruct (dec_together f a key iv o Hk Hv HN m1 m2 Hm1 Hm2 HL) as (o' & HK). fold c in HK. destruct (lock_ended _ _ _ _ _ _ HK) as (t & G).
  assert (HW1 := in_blocks_whole _ _ _ _ HM Hm1). assert (HW2 := in_blocks_whole _ _ _ _ HM Hm2). fold c in HW1, HW2.
  pose proof (dec_alone f a key iv o Hk Hv HN _ HW1) as D1. pose proof (dec_alone f a key iv o Hk Hv HN _ HW2) as D2. fold c in D1, D2. eexists t, _, _, o'. split; [exact G|]. split; [exact D2|]. rewrite D1.
  assert (OK1 : Forall (block c) (mixed (d_of f c) iv (blocks (nbs c) m1) (blocks (nbs c) m2))) by (apply (mixed_ok (block c) (e_of f c) (d_of f c) (e_next f c) (d_next f c) (e_ok f c Hc) (d_ok f c Hc)); auto).
  assert (OK2 : Forall (block c) (own (d_of f c) iv (blocks (nbs c) m1))) by (apply (own_ok (block c) (e_of f c) (d_of f c) (e_next f c) (d_next f c) (e_ok f c Hc) (d_ok f c Hc)); auto).
  pose proof (mixed_reads (block c) (d_of f c) (d_next f c) (d_sep f c Hc) _ _ iv iv HLb Hb Hb F1 F2) as HD.
  pose proof (alike_blocks a _ _ (block_lengths _ _ _ _ HM F1) (block_lengths _ _ _ _ HM F2)) as HA. rewrite <- E1, <- E2 in HA. rewrite <- HA. split.
  - intros E. injection E as E. apply HD. symmetry. apply (concat_same (bsize a)) in E; [exact E | destruct a; cbn; lia | exact (block_lengths _ _ _ _ HM OK2) | exact (block_lengths _ _ _ _ HM OK1)].
  - intros R. destruct HD as [_ HD]. now rewrite HD by (split; [now right | exact R]).
Qed.
Print Assumptions C163_decrypt.

(** The claim: calls of two threads have the results that they have one after the other in one or the other order. *)
Definition whole_vector : kwargs := with_iv [0x12; 0x34; 0x56; 0x78; 0x90; 0xab; 0xcd; 0xef].
Theorem C163_cbc_refuted : ~ calls_are_serial p_cbc_encrypt MODE_CBC /\ ~ calls_are_serial p_cbc_decrypt MODE_CBC.
Proof. split; [two_threads whole_vector one_block one_block (alternate 6) | two_threads whole_vector one_block one_block (alternate 6)]. Qed.
Print Assumptions C163_cbc_refuted.
Theorem C163_cfb_refuted : ~ calls_are_serial p_cfb_encrypt MODE_CFB /\ ~ calls_are_serial p_cfb_decrypt MODE_CFB.
Proof. split; [two_threads whole_vector one_block one_block (alternate 6) | two_threads whole_vector one_block one_block (alternate 6)]. Qed.
Print Assumptions C163_cfb_refuted.
(** Magma, messages of two blocks: the ciphertext of the first thread is not decrypted to its message if the first blocks differ, and is if they agree. *)
Definition read_back (f : chained) (m1 m2 : bytes) : option (res bytes) :=
  match new (alg Mag) (VBytes magma_test_key) (VInt (code f)) whole_vector with
  | Ok (NewMode o) => match fst (go (alternate 9) [enc_thread f m1; enc_thread f m2] o) with [Ret c1; Ret _] => Some (result (decrypt (VBytes c1) o)) | _ => None end
  | _ => None
  end.
Example C163_example : let m1 := [1; 2; 3; 4; 5; 6; 7; 8; 9; 10; 11; 12; 13; 14; 15; 16] in let m2 := repeat 0x55 16 in let m3 := firstn 8 m1 ++ repeat 0x55 8 in
  (forall f, in_blocks Mag m1 /\ in_blocks Mag m2 /\ in_blocks Mag m3 /\ ~ alike Mag m1 m2 /\ alike Mag m1 m3 /\ read_back f m1 m2 <> Some (Ok m1) /\ read_back f m1 m3 = Some (Ok m1)).
Proof.
  cbv zeta. intros f.
  assert (In : forall m, bytes_okb m = true -> m <> [] -> (List.length m mod 8 = 0)%nat -> in_blocks Mag m) by (intros m H1 H2 H3; split; [now apply bytes_okb_ok|]; split; [exact H2 | exact H3]).
  split; [apply In; [reflexivity | discriminate | reflexivity]|]. split; [apply In; [reflexivity | discriminate | reflexivity]|]. split; [apply In; [reflexivity | discriminate | reflexivity]|]. split; [vm_compute; discriminate|]. split; [vm_compute; reflexivity|].
  destruct f; (split; [vm_compute; discriminate | vm_compute; reflexivity]).
Qed.
