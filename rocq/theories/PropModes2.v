(** * Properties C24-C30, C32-C35, C43-C45, C97: mode objects in any state *)
From Verif Require Import PyBase PyState Utils CipherObj Modes Mac SpecModes SpecNew CipherLemmas CipherObjFacts ModeLemmas ModeProps ModeEmpty ModeSim ModeNew ModeHist ModeMore ModePad ModeClear ModeTrack ModeExamples ModeExamples2.
Open Scope string_scope.
Open Scope list_scope.
Open Scope Z_scope.

(** [object_of a key cl kw o]: [o] was made by [new] with these arguments, and then any calls
    (encrypt, decrypt, clear, attribute reads; successful or not) were made on it. *)

(** C24: calling on the pieces and joining the results is one call on the joined data; also the
    object afterwards is the same. *)
Theorem C24_chunks_encrypt : forall a key cl kw o chunks,
  bytes_ok key -> kw_ok kw -> object_of a key cl kw o ->
  chunks <> [] -> Forall bytes_ok chunks -> whole_but_last (Z.of_nat (bsize a)) chunks ->
  (cl = ECB \/ cl = CBC -> pad_arg kw = VInt PAD_MODE_1 /\ Forall (fun m => m <> []) chunks) ->
  calls_joined encrypt chunks o = encrypt (VBytes (concat chunks)) o.
Proof. exact chunks_encrypt. Qed.
Print Assumptions C24_chunks_encrypt.
Theorem C24_chunks_decrypt : forall a key cl kw o chunks,
  bytes_ok key -> kw_ok kw -> object_of a key cl kw o ->
  chunks <> [] -> Forall bytes_ok chunks -> whole_but_last (Z.of_nat (bsize a)) chunks ->
  calls_joined decrypt chunks o = decrypt (VBytes (concat chunks)) o.
Proof. exact chunks_decrypt. Qed.
Print Assumptions C24_chunks_decrypt.

Example C24_example : object_of Mag magma_test_key CBC (example_kw CBC P1) (example_object CBC P1) /\
  whole_but_last (Z.of_nat (bsize Mag)) [firstn 8 plain8; skipn 8 plain8] /\
  fst (calls_joined encrypt [firstn 8 plain8; skipn 8 plain8] (example_object CBC P1)) = Ok cbc_ct8.
Proof. split; [apply example_is|]. split; [repeat constructor|]. vm_compute. reflexivity. Qed.

(** C25: the claim is that the bytes of a partial last block and of the next message are not
    enciphered with the same gamma. *)
Definition gamma_not_reused : Prop := forall a key cl kw o m1 m2 c1 c2 o1 o2,
  bytes_ok key -> kw_ok kw -> object_of a key cl kw o -> cl = CFB \/ cl = OFB -> bytes_ok m1 -> bytes_ok m2 ->
  (List.length m1 mod bsize a <> 0)%nat -> m2 <> [] ->
  encrypt (VBytes m1) o = (Ok c1, o1) -> encrypt (VBytes m2) o1 = (Ok c2, o2) ->
  let k := (List.length m1 / bsize a * bsize a)%nat in bxor (skipn k c1) c2 <> bxor (skipn k m1) m2.

Theorem C25_gamma_reused : forall a key cl kw iv o m1 m2,
  bytes_ok key -> kw_ok kw -> object_of a key cl kw o -> cl = CFB \/ cl = OFB -> iv_arg a cl kw = VBytes iv -> iv <> [] ->
  bytes_ok m1 -> bytes_ok m2 -> (List.length m1 mod bsize a <> 0)%nat ->
  exists c1 c2 o1 o2, encrypt (VBytes m1) o = (Ok c1, o1) /\ encrypt (VBytes m2) o1 = (Ok c2, o2) /\
    let k := (List.length m1 / bsize a * bsize a)%nat in bxor (skipn k c1) c2 = bxor (skipn k m1) m2.
Proof. exact gamma_reuse. Qed.
Print Assumptions C25_gamma_reused.
Theorem C25_gamma_refuted : ~ gamma_not_reused.
Proof.
  intros H. assert (Hb : bytes_ok [0]) by concrete_bytes.
  destruct (C25_gamma_reused Mag magma_test_key CFB (example_kw CFB P1) iv24 (example_object CFB P1) [0] [0] key_bytes
    (example_kw_ok CFB P1) (example_is CFB P1) (or_introl eq_refl) eq_refl ltac:(discriminate) Hb Hb ltac:(discriminate)) as (c1 & c2 & o1 & o2 & E1 & E2 & E3).
  refine (H _ _ _ _ _ _ _ _ _ _ _ key_bytes (example_kw_ok CFB P1) (example_is CFB P1) (or_introl eq_refl) Hb Hb _ _ E1 E2 E3); discriminate.
Qed.
Print Assumptions C25_gamma_refuted.

Example C25_example : iv_arg Mag OFB (example_kw OFB P1) = VBytes iv24 /\ object_of Mag magma_test_key OFB (example_kw OFB P1) (example_object OFB P1) /\
  fst (run [Encrypt (VBytes (firstn 11 plain8)); Encrypt (VBytes (skipn 11 plain8))] (example_object OFB P1)) <>
  fst (run [Encrypt (VBytes (firstn 11 plain8)); Encrypt (VBytes (repeat 0 21))] (example_object OFB P1)).
Proof. split; [reflexivity|]. split; [apply example_is|]. vm_compute. discriminate. Qed.

(** C26: padding mode 1 (ECB, and CBC with a non-empty IV). *)
Theorem C26_nothing_added : forall a key o m,
  pad_object a key P1 o -> bytes_ok m -> m <> [] -> (List.length m mod bsize a = 0)%nat ->
  exists ct o1 o2, encrypt (VBytes m) o = (Ok ct, o1) /\ decrypt (VBytes ct) o = (Ok m, o2).
Proof. exact pad1_nothing_added. Qed.
Print Assumptions C26_nothing_added.
Theorem C26_injective_on_length : forall a key o m m',
  pad_object a key P1 o -> bytes_ok m -> bytes_ok m' -> List.length m = List.length m' ->
  result (encrypt (VBytes m) o) = result (encrypt (VBytes m') o) -> m = m'.
Proof. exact pad1_injective. Qed.
Print Assumptions C26_injective_on_length.
Theorem C26_ambiguous : forall a key o m,
  pad_object a key P1 o -> bytes_ok m ->
  encrypt (VBytes m) o = encrypt (VBytes (m ++ repeat 0 (pad_zeros (bsize a) m))) o.
Proof. exact pad1_ambiguous. Qed.
Print Assumptions C26_ambiguous.
(** Two messages have the same ciphertext exactly when they agree after completion with zeros. *)
Theorem C26_collision_iff : forall a key o m m',
  pad_object a key P1 o -> bytes_ok m -> bytes_ok m' ->
  result (encrypt (VBytes m) o) = result (encrypt (VBytes m') o) <->
  m ++ repeat 0 (pad_zeros (bsize a) m) = m' ++ repeat 0 (pad_zeros (bsize a) m').
Proof. intros a key o m m'. exact (pad_encrypt_iff a key P1 o m m'). Qed.
Print Assumptions C26_collision_iff.

Example C26_example : pad_object Mag magma_test_key P1 (example_object CBC P1) /\
  encrypt (VBytes []) (example_object CBC P1) = encrypt (VBytes (repeat 0 8)) (example_object CBC P1) /\
  fst (encrypt (VBytes plain8) (example_object CBC P1)) = Ok cbc_ct8.
Proof.
  split; [apply example_pad; auto|]. split; [apply (pad1_empty Mag magma_test_key), example_pad; auto|]. vm_compute. reflexivity.
Qed.

(** C27: padding mode 2; [unpad2] removes trailing zeros and one byte 0x80. *)
Theorem C27_removable : forall a key o m,
  pad_object a key P2 o -> bytes_ok m ->
  exists ct pt o1 o2, encrypt (VBytes m) o = (Ok ct, o1) /\ decrypt (VBytes ct) o = (Ok pt, o2) /\ unpad2 pt = Some m.
Proof. exact pad2_removable. Qed.
Print Assumptions C27_removable.
Theorem C27_distinct : forall a key o m m',
  pad_object a key P2 o -> bytes_ok m -> bytes_ok m' ->
  result (encrypt (VBytes m) o) = result (encrypt (VBytes m') o) -> m = m'.
Proof. exact pad2_injective. Qed.
Print Assumptions C27_distinct.

Example C27_example : pad_object Mag magma_test_key P2 (example_object ECB P2) /\
  unpad2 [1; 2; 0x80; 0; 0x80; 0; 0] = Some [1; 2; 0x80; 0] /\ unpad2 [1; 0; 0] = None /\
  fst (run [Encrypt (VBytes [1; 2])] (example_object ECB P2)) <> fst (run [Encrypt (VBytes [1; 2; 0])] (example_object ECB P2)).
Proof. split; [apply example_pad; auto|]. split; [reflexivity|]. split; [reflexivity|]. vm_compute. discriminate. Qed.

(** C28: the claim is that padding mode 2 is procedure 2 of the standard. *)
Definition pad2_is_standard : Prop := forall a key o m,
  pad_object a key P2 o -> bytes_ok m ->
  exists ct o1 o2, encrypt (VBytes m) o = (Ok ct, o1) /\ decrypt (VBytes ct) o = (Ok (std_pad2 (bsize a) m), o2).

Theorem C28_pad2_exact : forall a key o m,
  pad_object a key P2 o -> bytes_ok m ->
  exists ct pt o1 o2, encrypt (VBytes m) o = (Ok ct, o1) /\ decrypt (VBytes ct) o = (Ok pt, o2) /\
    (pt = std_pad2 (bsize a) m <-> m <> [] /\ (List.length m mod bsize a = 0)%nat) /\
    (~ (m <> [] /\ (List.length m mod bsize a = 0)%nat) -> pt = std_pad2 (bsize a) m ++ repeat 0 (bsize a)).
Proof. exact pad2_api_iff. Qed.
Print Assumptions C28_pad2_exact.
Theorem C28_pad2_refuted : ~ pad2_is_standard.
Proof.
  intros H. assert (HP : pad_object Mag magma_test_key P2 (example_object ECB P2)) by (apply example_pad; auto).
  destruct (H Mag magma_test_key _ [] HP ltac:(constructor)) as (ct & o1 & o2 & E1 & E2).
  destruct (C28_pad2_exact Mag magma_test_key _ [] HP ltac:(constructor)) as (ct' & pt & o1' & o2' & E1' & E2' & Hiff & _).
  rewrite E1 in E1'. injection E1' as <- _. rewrite E2 in E2'. injection E2' as <- _. now destruct Hiff as [[Hne _] _].
Qed.
Print Assumptions C28_pad2_refuted.

Example C28_example : std_pad2 8 [1; 2; 3] = [1; 2; 3; 0x80; 0; 0; 0; 0] /\ std_pad2 8 [] = [0x80; 0; 0; 0; 0; 0; 0; 0] /\
  std_pad2 8 (repeat 7 8) = repeat 7 8 ++ [0x80; 0; 0; 0; 0; 0; 0; 0].
Proof. repeat split. Qed.

(** C29. *)
Theorem C29_stream_lengths : forall a key o m,
  stream_object a key o -> bytes_ok m ->
  (exists ct o1, encrypt (VBytes m) o = (Ok ct, o1) /\ List.length ct = List.length m) /\
  (exists pt o1, decrypt (VBytes m) o = (Ok pt, o1) /\ List.length pt = List.length m).
Proof. exact stream_length. Qed.
Print Assumptions C29_stream_lengths.
Theorem C29_padding_lengths : forall a key p o m,
  pad_object a key p o -> bytes_ok m ->
  exists ct o1, encrypt (VBytes m) o = (Ok ct, o1) /\
    List.length ct = (whole_length (bsize a) m + match p with P1 => 0 | P2 => bsize a end)%nat.
Proof. exact encrypt_length_pad. Qed.
Print Assumptions C29_padding_lengths.
Theorem C29_decrypted_lengths : forall a key p o d,
  pad_object a key p o -> bytes_ok d ->
  exists pt o1, decrypt (VBytes d) o = (Ok pt, o1) /\ List.length pt = (List.length d / bsize a * bsize a)%nat.
Proof. exact decrypt_length_pad. Qed.
Print Assumptions C29_decrypted_lengths.

Example C29_example : whole_length 8 [] = 8%nat /\ whole_length 8 (repeat 0 8) = 8%nat /\ whole_length 8 (repeat 0 9) = 16%nat /\
  stream_object Mag magma_test_key (example_object OFB P1).
Proof. repeat (split; [reflexivity|]). apply example_stream. auto. Qed.

(** C30: the claim is that a ciphertext that is not whole blocks is rejected. *)
Definition truncated_rejected : Prop := forall a key p o d,
  pad_object a key p o -> bytes_ok d -> (List.length d mod bsize a <> 0)%nat -> exists e, result (decrypt (VBytes d) o) = Err e.

Theorem C30_truncated_dropped : forall a key p o d,
  pad_object a key p o -> bytes_ok d ->
  decrypt (VBytes d) o = decrypt (VBytes (firstn (List.length d / bsize a * bsize a) d)) o /\
  exists pt o1, decrypt (VBytes d) o = (Ok pt, o1).
Proof. exact truncated_dropped. Qed.
Print Assumptions C30_truncated_dropped.
Theorem C30_truncated_refuted : ~ truncated_rejected.
Proof.
  intros H. assert (HP : pad_object Mag magma_test_key P1 (example_object ECB P1)) by (apply example_pad; auto).
  assert (Hb : bytes_ok [0]) by concrete_bytes.
  destruct (H Mag magma_test_key P1 _ [0] HP Hb ltac:(discriminate)) as [e E].
  destruct (C30_truncated_dropped Mag magma_test_key P1 _ [0] HP Hb) as [_ (pt & o1 & E1)]. unfold result in E. rewrite E1 in E. discriminate E.
Qed.
Print Assumptions C30_truncated_refuted.

Example C30_example : fst (decrypt (VBytes (ecb_ct8 ++ [1; 2; 3])) (example_object ECB P1)) = Ok plain8.
Proof. vm_compute. reflexivity. Qed.

(** C32: the claim is that every IV the constructor accepts gives a working object. *)
Definition accepted_iv_works : Prop := forall a key cl kw o m,
  bytes_ok key -> kw_ok kw -> new (alg a) (VBytes key) (VInt (mode_code cl)) kw = Ok (NewMode o) -> bytes_ok m ->
  exists ct pt o1 o2, encrypt (VBytes m) o = (Ok ct, o1) /\ decrypt (VBytes ct) o = (Ok pt, o2) /\ recovered cl kw (bsize a) m pt.

Theorem C32_nonempty_iv_works : forall a key cl kw o m,
  bytes_ok key -> kw_ok kw -> object_of a key cl kw o -> bytes_ok m ->
  cl = ECB \/ cl = CTR \/ iv_arg a cl kw <> VBytes [] ->
  exists ct pt o1 o2, encrypt (VBytes m) o = (Ok ct, o1) /\ decrypt (VBytes ct) o = (Ok pt, o2) /\ recovered cl kw (bsize a) m pt.
Proof. exact iv_works. Qed.
Print Assumptions C32_nonempty_iv_works.
Theorem C32_empty_iv_stream : forall a key kw cl,
  bytes_len 32 key -> gives_iv kw [] -> cl = CFB \/ cl = OFB ->
  exists o, new (alg a) (VBytes key) (VInt (mode_code cl)) kw = Ok (NewMode o) /\
    forall m, m <> [] -> encrypt (VBytes m) o = (Err IndexError, o) /\ decrypt (VBytes m) o = (Err IndexError, o).
Proof. exact empty_stream. Qed.
Print Assumptions C32_empty_iv_stream.
(** CBC decryption drops the first block and takes it for the IV. *)
Theorem C32_empty_iv_cbc : forall a key kw p,
  bytes_len 32 key -> gives_pad kw p -> gives_iv kw [] ->
  exists o, new (alg a) (VBytes key) (VInt MODE_CBC) kw = Ok (NewMode o) /\
    (forall m, bytes_ok m -> encrypt (VBytes m) o = (Err IndexError, o)) /\
    (forall d, bytes_ok d -> result (decrypt (VBytes d) o) =
       match whole (bsize a) d with
       | [] => Ok []
       | c1 :: cs => Ok (concat (cbc_dec (spec_D a key) [c1] cs))
       end).
Proof. exact empty_cbc. Qed.
Print Assumptions C32_empty_iv_cbc.
Theorem C32_iv_refuted : ~ accepted_iv_works.
Proof.
  intros H. assert (Hkw : kw_ok (with_iv [] P1)) by (apply with_iv_ok; constructor).
  destruct (C32_empty_iv_cbc Mag magma_test_key (with_iv [] P1) P1 key_ok eq_refl eq_refl) as (o & Hn & He & _).
  destruct (H Mag magma_test_key CBC (with_iv [] P1) o [] key_bytes Hkw Hn ltac:(constructor)) as (ct & pt & o1 & o2 & E & _).
  rewrite He in E by constructor. discriminate E.
Qed.
Print Assumptions C32_iv_refuted.

Example C32_example : iv_arg Mag CBC (example_kw CBC P2) <> VBytes [] /\ recovered CBC (example_kw CBC P2) 8 [7] (7 :: 0x80 :: repeat 0 14) /\
  gives_iv (with_iv [] P1) [].
Proof. split; [discriminate|]. split; [exists P2; now split | reflexivity]. Qed.

(** C33: the claim is that a rejected argument changes nothing. *)
Definition rejected_harmless : Prop := forall a key cl kw o d m,
  bytes_ok key -> kw_ok kw -> object_of a key cl kw o -> not_bytes d -> bytes_ok m ->
  (exists msg, result (encrypt d o) = Err (GOSTCipherError msg)) /\
  result (encrypt (VBytes m) (snd (encrypt d o))) = result (encrypt (VBytes m) o).

Theorem C33_rejected_clears : forall a key cl kw o d,
  bytes_ok key -> kw_ok kw -> object_of a key cl kw o -> not_bytes d ->
  encrypt d o = (Err invalid_plaintext, snd (clear o)) /\ decrypt d o = (Err invalid_ciphertext, snd (clear o)).
Proof. exact rejected_clears. Qed.
Print Assumptions C33_rejected_clears.
Theorem C33_rejected_refuted : ~ rejected_harmless.
Proof.
  intros H. assert (Hm : bytes_ok (firstn 8 plain8)) by concrete_bytes.
  destruct (H Mag magma_test_key ECB (example_kw ECB P1) (example_object ECB P1) VNone _ key_bytes (example_kw_ok ECB P1) (example_is ECB P1) I Hm) as [_ E].
  revert E. vm_compute. discriminate.
Qed.
Print Assumptions C33_rejected_refuted.

Example C33_example : not_bytes (VStr "text") /\ not_bytes (VInt 5) /\
  fst (run [Encrypt (VStr "text"); Encrypt (VBytes (firstn 8 plain8))] (example_object ECB P1)) =
  [Err (GOSTCipherError "GOSTCipherError: invalid plaintext data");
   fst (encrypt (VBytes (firstn 8 plain8)) (public_key_object Mag (example_object ECB P1)))].
Proof. split; [exact I|]. split; [exact I|]. vm_compute. reflexivity. Qed.

(** C34: after [clear] nothing depends on the key. *)
Theorem C34_clear_independent : forall a key key' cl kw o o' cs,
  bytes_ok key -> bytes_ok key' -> kw_ok kw ->
  object_of a key cl kw o -> object_of a key' cl kw o' ->
  o_init_vect o = o_init_vect o' -> o_counter o = o_counter o' -> Forall call_ok cs ->
  fst (run (Clear :: cs) o) = fst (run (Clear :: cs) o').
Proof. exact cleared_key_independent. Qed.
Print Assumptions C34_clear_independent.
Theorem C34_clear_fresh : forall a key key' cl kw o o' cs,
  bytes_ok key -> bytes_ok key' -> kw_ok kw ->
  new (alg a) (VBytes key) (VInt (mode_code cl)) kw = Ok (NewMode o) ->
  new (alg a) (VBytes key') (VInt (mode_code cl)) kw = Ok (NewMode o') -> Forall call_ok cs ->
  fst (run (Clear :: cs) o) = fst (run (Clear :: cs) o').
Proof. exact cleared_fresh. Qed.
Print Assumptions C34_clear_fresh.

Example C34_example :
  exists o', new (alg Mag) (VBytes (repeat 1 32)) (VInt MODE_CFB) (example_kw CFB P1) = Ok (NewMode o') /\
    fst (run [Encrypt (VBytes [1; 2; 3])] o') <> fst (run [Encrypt (VBytes [1; 2; 3])] (example_object CFB P1)) /\
    fst (run [Clear; Encrypt (VBytes [1; 2; 3])] o') = fst (run [Clear; Encrypt (VBytes [1; 2; 3])] (example_object CFB P1)).
Proof. eexists. split; [vm_compute; reflexivity|]. split; [vm_compute; discriminate | vm_compute; reflexivity]. Qed.

(** C35: the claim is that a cleared object refuses to encrypt. *)
Definition cleared_refuses : Prop := forall a key cl kw o m,
  bytes_ok key -> kw_ok kw -> object_of a key cl kw o -> bytes_ok m -> exists e, result (encrypt (VBytes m) (snd (clear o))) = Err e.

(** Every later result is that of the object whose round keys are a public constant. *)
Theorem C35_cleared_behaves : forall a key cl kw o cs,
  bytes_ok key -> kw_ok kw -> object_of a key cl kw o -> Forall call_ok cs ->
  fst (clear o) = Ok tt /\ fst (run cs (snd (clear o))) = fst (run cs (public_key_object a o)).
Proof. exact cleared_behaves. Qed.
Print Assumptions C35_cleared_behaves.
Theorem C35_cleared_refuted : ~ cleared_refuses.
Proof.
  intros H. assert (HF : Forall call_ok [Clear]) by repeat constructor.
  assert (HO : object_of Mag magma_test_key ECB (example_kw ECB P1) (snd (clear (example_object ECB P1)))).
  { pose proof (object_step _ _ _ _ _ Clear I (example_is ECB P1)) as HS. cbn [step] in HS. now destruct (clear (example_object ECB P1)). }
  destruct (H Mag magma_test_key ECB _ _ [] key_bytes (example_kw_ok ECB P1) (example_is ECB P1) ltac:(constructor)) as [e E].
  destruct (C32_nonempty_iv_works Mag magma_test_key ECB _ _ [] key_bytes (example_kw_ok ECB P1) HO ltac:(constructor) (or_introl eq_refl)) as (ct & pt & o1 & o2 & E1 & _).
  unfold result in E. rewrite E1 in E. discriminate E.
Qed.
Print Assumptions C35_cleared_refuted.

Example C35_example : cleared_obj Mag = MagmaObj (repeat [47; 120; 48; 48] 32) /\
  cleared_obj Kuz = KuzObj (repeat [47; 120; 48; 48; 47; 120; 48; 48; 47; 120; 48; 48; 47; 120; 48; 48] 10).
Proof. split; reflexivity. Qed.

(** C43: the claim for a mode. *)
Definition same_object_decrypts (cl : mode_class) : Prop := forall a key kw o m,
  bytes_ok key -> kw_ok kw -> object_of a key cl kw o -> cl = ECB \/ cl = CTR \/ iv_arg a cl kw <> VBytes [] -> bytes_ok m ->
  exists ct pt o1 o2, encrypt (VBytes m) o = (Ok ct, o1) /\ decrypt (VBytes ct) o1 = (Ok pt, o2) /\ recovered cl kw (bsize a) m pt.

Theorem C43_same_object_refuted : forall cl, same_object_decrypts cl <-> cl = ECB.
Proof.
  intros cl. split.
  - intros H. assert (HD : cl = ECB \/ cl <> ECB) by (destruct cl; auto; right; discriminate). destruct HD as [HD|HD]; [exact HD|]. exfalso.
    assert (Hm : bytes_ok (firstn 8 plain8)) by concrete_bytes.
    destruct (H Mag magma_test_key (example_kw cl P1) (example_object cl P1) _ key_bytes (example_kw_ok cl P1) (example_is cl P1)
      ltac:(destruct cl; [left; reflexivity | right; right; discriminate | right; right; discriminate | right; right; discriminate | right; left; reflexivity]) Hm)
      as (ct & pt & o1 & o2 & E1 & E2 & Hr).
    destruct (same_object_wrong cl HD) as (x & E & Hx). unfold same_object in E. rewrite E1 in E. cbn [bind] in E. rewrite E2 in E. injection E as <-.
    apply Hx. destruct cl; [contradiction| | | |]; cbn [recovered] in Hr; try exact Hr.
    destruct Hr as (p & Hp & ->). destruct p; [reflexivity | discriminate].
  - intros ->. intros a key kw o m Hk Hkw HO _ Hm.
    destruct (object_facts a key ECB kw o Hk Hkw HO) as ([Hc V] & Ecl & Ha & Hpad & _). rewrite Ecl in V. destruct V as [p Hp].
    destruct (ModeSem.rt_ecb o Hc p m Ecl Hp Hm) as (ct & H1 & _ & H2). rewrite (object_nbs o a Ha) in H2.
    exists ct. eexists _, _, _. split; [exact H1|]. split; [exact H2|]. exists p. rewrite Hpad, Hp. auto.
Qed.
Print Assumptions C43_same_object_refuted.

Example C43_example : same_object ECB P1 (firstn 8 plain8) = Ok (firstn 8 plain8).
Proof. vm_compute. reflexivity. Qed.

(** C44: [live a cl o]: an object of the class in any state, made with a non-empty IV.
    [last_full n d k] is the last of the whole blocks of [d] among its first [k] bytes. *)
Theorem C44_iv_cbc : forall a o d, live a CBC o -> bytes_ok d ->
  (exists ct o1, encrypt (VBytes d) o = (Ok ct, o1) /\ iv o1 = last_full (bsize a) ct (List.length ct)) /\
  ((bsize a <= List.length d)%nat ->
   exists pt o1, decrypt (VBytes d) o = (Ok pt, o1) /\ iv o1 = last_full (bsize a) d (List.length d)).
Proof. exact iv_cbc. Qed.
Print Assumptions C44_iv_cbc.
Theorem C44_iv_cfb : forall a o d, live a CFB o -> bytes_ok d -> (bsize a <= List.length d)%nat ->
  (exists ct o1, encrypt (VBytes d) o = (Ok ct, o1) /\ iv o1 = last_full (bsize a) ct (List.length d)) /\
  (exists pt o1, decrypt (VBytes d) o = (Ok pt, o1) /\ iv o1 = last_full (bsize a) d (List.length d)).
Proof. exact iv_cfb. Qed.
Print Assumptions C44_iv_cfb.
(** The gamma block is the difference of plaintext and ciphertext. *)
Theorem C44_iv_ofb : forall a o d, live a OFB o -> bytes_ok d -> (bsize a <= List.length d)%nat ->
  exists ct o1, encrypt (VBytes d) o = (Ok ct, o1) /\ decrypt (VBytes d) o = (Ok ct, o1) /\
    iv o1 = bxor (last_full (bsize a) d (List.length d)) (last_full (bsize a) ct (List.length d)).
Proof. exact iv_ofb. Qed.
Print Assumptions C44_iv_ofb.
Theorem C44_iv_short : forall a cl o d, live a cl o -> cl = CFB \/ cl = OFB -> bytes_ok d -> (List.length d < bsize a)%nat ->
  snd (encrypt (VBytes d) o) = o /\ snd (decrypt (VBytes d) o) = o.
Proof. exact iv_short. Qed.
Print Assumptions C44_iv_short.
(** [consumed n cs] is the number of blocks, the last of a call possibly partial, that the calls processed. *)
Theorem C44_counter : forall a key kw iv cs,
  bytes_len 32 key -> kw_ok kw -> gives_iv kw iv -> bytes_len (half a) iv -> Forall call_ok cs ->
  exists o, new (alg a) (VBytes key) (VInt MODE_CTR) kw = Ok (NewMode o) /\
    o_counter (snd (run cs o)) = iv ++ repeat 0 (bsize a / 2 - 1) ++ [Z.of_nat (consumed (bsize a) cs) mod 256].
Proof. exact counter_tracks. Qed.
Print Assumptions C44_counter.

Example C44_example : live Mag CFB (example_object CFB P1) /\
  iv (snd (encrypt (VBytes (firstn 19 plain8)) (example_object CFB P1))) = firstn 8 (skipn 8 (match fst (encrypt (VBytes (firstn 16 plain8)) (example_object CFB P1)) with Ok c => c | _ => [] end)) /\
  consumed 8 [Encrypt (VBytes [1]); ReadIv; Decrypt (VBytes (repeat 0 17)); Encrypt VNone] = 4%nat /\
  o_counter (snd (run [Encrypt (VBytes [1]); Decrypt (VBytes (repeat 0 17))] (example_object CTR P1))) = firstn 4 iv24 ++ [0; 0; 0; 4].
Proof. split; [apply example_live; discriminate|]. split; [vm_compute; reflexivity|]. split; [reflexivity|]. vm_compute. reflexivity. Qed.

(** C45: [differ_at n j d d']: equal lengths, and equal blocks except perhaps block [j]. *)
Theorem C45_cbc_local : forall a key kw p iv d d' j,
  bytes_len 32 key -> gives_pad kw p -> gives_iv kw iv -> iv_blocks a iv -> bytes_ok d -> bytes_ok d' -> differ_at (bsize a) j d d' ->
  let m := (List.length iv / bsize a)%nat in
  exists o pt pt', new (alg a) (VBytes key) (VInt MODE_CBC) kw = Ok (NewMode o) /\
    result (decrypt (VBytes d) o) = Ok pt /\ result (decrypt (VBytes d') o) = Ok pt' /\
    (forall i, i <> j -> i <> (j + m)%nat -> nth_block (bsize a) pt i = nth_block (bsize a) pt' i) /\
    ((j + m < List.length d / bsize a)%nat ->
      bxor (nth_block (bsize a) pt (j + m)) (nth_block (bsize a) pt' (j + m)) = bxor (nth_block (bsize a) d j) (nth_block (bsize a) d' j)).
Proof. exact cbc_local. Qed.
Print Assumptions C45_cbc_local.
Theorem C45_cfb_local : forall a key kw iv d d' j,
  bytes_len 32 key -> gives_iv kw iv -> iv_blocks a iv -> bytes_ok d -> bytes_ok d' -> differ_at (bsize a) j d d' ->
  let m := (List.length iv / bsize a)%nat in
  exists o pt pt', new (alg a) (VBytes key) (VInt MODE_CFB) kw = Ok (NewMode o) /\
    result (decrypt (VBytes d) o) = Ok pt /\ result (decrypt (VBytes d') o) = Ok pt' /\
    (forall i, i <> j -> i <> (j + m)%nat -> nth_block (bsize a) pt i = nth_block (bsize a) pt' i) /\
    bxor (nth_block (bsize a) pt j) (nth_block (bsize a) pt' j) = bxor (nth_block (bsize a) d j) (nth_block (bsize a) d' j).
Proof. exact cfb_local. Qed.
Print Assumptions C45_cfb_local.

Example C45_example : differ_at 8 1 cbc_ct8 (firstn 8 cbc_ct8 ++ repeat 9 8 ++ skipn 16 cbc_ct8) /\ (List.length iv24 / bsize Mag = 3)%nat.
Proof.
  split; [|reflexivity]. split; [reflexivity|]. intros i Hi.
  assert (L1 : List.length cbc_ct8 = 32%nat) by reflexivity.
  assert (L2 : List.length (firstn 8 cbc_ct8 ++ repeat 9 8 ++ skipn 16 cbc_ct8) = 32%nat) by reflexivity.
  destruct (Nat.le_gt_cases 4 i) as [Hge|Hlt].
  - unfold nth_block. rewrite !skipn_all2; [reflexivity | rewrite L2; lia | rewrite L1; lia].
  - do 4 (destruct i as [|i]; [try contradiction; reflexivity|]). lia.
Qed.

(** C97: an omitted keyword argument means a fixed constant. *)
Definition explicit (a : balg) (cl : mode_class) (kw : kwargs) : kwargs :=
  {| kw_init_vect := Some (iv_arg a cl kw); kw_data := kw_data kw; kw_pad_mode := Some (pad_arg kw) |}.
Theorem C97_defaults : forall a key cl kw,
  new (alg a) key (VInt (mode_code cl)) kw = new (alg a) key (VInt (mode_code cl)) (explicit a cl kw).
Proof. intros a key cl kw. destruct a, cl; reflexivity. Qed.
Print Assumptions C97_defaults.

Example C97_example : forall kw, kw_init_vect kw = None -> kw_pad_mode kw = None ->
  pad_arg kw = VInt 0x800000f0 /\ iv_arg Mag CTR kw = VBytes [0x12; 0x34; 0x56; 0x78] /\
  iv_arg Kuz CTR kw = VBytes [0x12; 0x34; 0x56; 0x78; 0x90; 0xab; 0xce; 0xf0] /\
  iv_arg Kuz CBC kw = VBytes iv32 /\ iv_arg Kuz OFB kw = VBytes iv32 /\ iv_arg Mag CBC kw = VBytes iv24 /\ iv_arg Mag CFB kw = VBytes (firstn 16 iv24).
Proof. intros kw H1 H2. unfold pad_arg, iv_arg. rewrite H1, H2. repeat match goal with |- _ /\ _ => split end; vm_compute; reflexivity. Qed.
