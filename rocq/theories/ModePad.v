(** * Padding, lengths, truncated data *)
From Verif Require Import PyBase PyFacts PyState Utils UtilsFacts CipherObj Modes Mac SpecNew.
From Verif Require Import SpecModes CipherLemmas CipherObjFacts ModeFacts CtrFacts ModeSpecFacts ModeLemmas ModeSem ModeConf ModeProps ModeEmpty ModeSim ModeNew ModeHist ModeMore.
Open Scope string_scope.
Open Scope list_scope.
Open Scope Z_scope.

(** An object of a padding mode; in CBC mode made with a non-empty IV. *)
Definition pad_object (a : balg) (key : bytes) (p : pmode) (o : mode_obj) : Prop :=
  exists cl kw, bytes_ok key /\ kw_ok kw /\ object_of a key cl kw o /\ pad_arg kw = VInt (pad_code p) /\
    (cl = ECB \/ cl = CBC /\ iv_arg a CBC kw <> VBytes []).
(** An object of a stream mode, made with a non-empty IV. *)
Definition stream_object (a : balg) (key : bytes) (o : mode_obj) : Prop :=
  exists cl kw, bytes_ok key /\ kw_ok kw /\ object_of a key cl kw o /\
    (cl = CTR \/ (cl = CFB \/ cl = OFB) /\ iv_arg a cl kw <> VBytes []).

Lemma iv_arg_bytes a cl kw key o : bytes_ok key -> kw_ok kw -> cl <> ECB ->
  new (alg a) (VBytes key) (VInt (mode_code cl)) kw = Ok (NewMode o) -> exists b, iv_arg a cl kw = VBytes b.
Proof.
  intros Hk Hkw Hcl Hn. destruct (iv_arg a cl kw) as [b|s|z|] eqn:E; [now exists b| | |]; exfalso; revert Hn;
  destruct (base_init_key a (VBytes key) Hk) as [(_ & c & k & _ & _ & Hb & Hmd)|[_ Hb]];
  (destruct cl; [contradiction| | | |]); cbn [mode_code];
  rewrite ?new_cbc_eq, ?new_cfb_eq, ?new_ofb_eq, ?new_ctr_eq, E; unfold cbc_init, padding_init, feedback_init, ctr_init;
  rewrite Hb; cbn [bind]; try discriminate;
  (destruct (pad_arg kw); try discriminate; destruct ((z0 =? PAD_MODE_1) || (z0 =? PAD_MODE_2)) || destruct ((z =? PAD_MODE_1) || (z =? PAD_MODE_2)); discriminate).
Qed.

Lemma object_iv a key cl kw o : bytes_ok key -> kw_ok kw -> object_of a key cl kw o -> cl = CBC \/ cl = CFB \/ cl = OFB ->
  iv_arg a cl kw <> VBytes [] -> exists R, reg o R.
Proof.
  intros Hk Hkw HO Hcl Hne. destruct (object_facts a key cl kw o Hk Hkw HO) as (_ & _ & _ & _ & H).
  destruct HO as (o0 & cs & Hn & _). destruct (iv_arg_bytes a cl kw key o0 Hk Hkw) as [b Eb]; [destruct Hcl as [-> |[-> | ->]]; discriminate | exact Hn |].
  apply (H b Hcl Eb). congruence.
Qed.

Lemma pad_object_cases a key p o : pad_object a key p o ->
  co_ok (o_cipher o) /\ co_alg (o_cipher o) = a /\ o_pad_mode o = pad_code p /\
  (o_class o = ECB \/ o_class o = CBC /\ exists R, reg o R).
Proof.
  intros (cl & kw & Hk & Hkw & HO & Hp & Hcl).
  destruct (object_facts a key cl kw o Hk Hkw HO) as (V & Ecl & Ha & Hpad & _). split; [apply V|]. split; [exact Ha|].
  rewrite Hp in Hpad. destruct Hcl as [-> |[-> Hne]].
  - injection Hpad as ->. auto.
  - injection Hpad as ->. split; [reflexivity|]. right. split; [exact Ecl|]. apply (object_iv a key CBC kw); auto.
Qed.
Lemma stream_object_cases a key o : stream_object a key o ->
  co_ok (o_cipher o) /\ co_alg (o_cipher o) = a /\
  (o_class o = CTR /\ block (o_cipher o) (o_counter o) \/ (o_class o = CFB \/ o_class o = OFB) /\ exists R, reg o R).
Proof.
  intros (cl & kw & Hk & Hkw & HO & Hcl).
  destruct (object_facts a key cl kw o Hk Hkw HO) as (V & Ecl & Ha & Hpad & _). split; [apply V|]. split; [exact Ha|].
  destruct Hcl as [-> |[Hcl Hne]].
  - left. split; [exact Ecl|]. destruct V as [_ V]. now rewrite Ecl in V.
  - right. split; [rewrite Ecl; tauto|]. apply (object_iv a key cl kw); auto; tauto.
Qed.

(** ** The round trip of a padding mode from any such state *)
Lemma pad_roundtrip a key p o m : pad_object a key p o -> bytes_ok m ->
  exists ct o1 o2, encrypt (VBytes m) o = (Ok ct, o1) /\ decrypt (VBytes ct) o = (Ok (padded p (bsize a) m), o2).
Proof.
  intros HO Hm. destruct (pad_object_cases a key p o HO) as (Hc & Ha & Hp & Hcl). rewrite <- (object_nbs o a Ha).
  destruct Hcl as [Hcl|[Hcl [R HR]]].
  - destruct (rt_ecb o Hc p m Hcl Hp Hm) as (ct & H1 & _ & H2). eauto 6.
  - destruct (rt_cbc o Hc R p m Hcl Hp HR Hm) as (ct & o1 & o2 & H1 & _ & H2). eauto 6.
Qed.

(** The call depends on the message only through the padded message. *)
Lemma pad_encrypt_padded a key p o m m' : pad_object a key p o -> bytes_ok m -> bytes_ok m' ->
  padded p (bsize a) m = padded p (bsize a) m' -> encrypt (VBytes m) o = encrypt (VBytes m') o.
Proof.
  intros HO Hm Hm' E. destruct (pad_object_cases a key p o HO) as (Hc & Ha & Hp & Hcl). rewrite <- (object_nbs o a Ha) in E.
  destruct Hcl as [Hcl|[Hcl [R HR]]].
  - rewrite !(sem_ecb_enc o Hc p _ Hcl Hp) by assumption. now rewrite E.
  - destruct (sem_cbc_enc o Hc R HR p m Hcl Hp Hm) as [-> _]. destruct (sem_cbc_enc o Hc R HR p m' Hcl Hp Hm') as [-> _]. now rewrite E.
Qed.
Lemma pad_encrypt_iff a key p o m m' : pad_object a key p o -> bytes_ok m -> bytes_ok m' ->
  result (encrypt (VBytes m) o) = result (encrypt (VBytes m') o) <-> padded p (bsize a) m = padded p (bsize a) m'.
Proof.
  intros HO Hm Hm'. split; [|intros E; f_equal; now apply (pad_encrypt_padded a key p)].
  destruct (pad_roundtrip a key p o m HO Hm) as (ct & o1 & o2 & E1 & D1).
  destruct (pad_roundtrip a key p o m' HO Hm') as (ct' & o1' & o2' & E2 & D2).
  unfold result. rewrite E1, E2. cbn [fst]. intros H. injection H as <-. rewrite D1 in D2. congruence.
Qed.

(** ** Padding mode 1 *)

Lemma bsize_pos a : (0 < bsize a)%nat.
Proof. destruct a; cbn; lia. Qed.

Lemma pad1_equal_length n (m m' : bytes) : List.length m = List.length m' -> padded P1 n m = padded P1 n m' -> m = m'.
Proof.
  intros HL E. unfold padded in E. apply (f_equal (firstn (List.length m))) in E.
  rewrite firstn_app, Nat.sub_diag, firstn_all, firstn_O, app_nil_r in E. rewrite HL in E.
  rewrite firstn_app, Nat.sub_diag, firstn_all, firstn_O, app_nil_r in E. exact E.
Qed.
(** A message completed by zeros by hand. *)
Lemma pad1_idem a (m : bytes) : padded P1 (bsize a) (padded P1 (bsize a) m) = padded P1 (bsize a) m.
Proof.
  set (c := cleared_obj a). assert (Hn : nbs c = bsize a) by now destruct a. rewrite <- Hn.
  destruct (padded_length c P1 m) as (k & Hk & HL). apply pad1_whole; [apply nbs_pos| |].
  - intros E. rewrite E in HL. cbn in HL. pose proof (nbs_pos c). nia.
  - rewrite HL. apply Nat.mod_mul. pose proof (nbs_pos c). lia.
Qed.

Lemma pad1_nothing_added a key o m : pad_object a key P1 o -> bytes_ok m -> m <> [] -> (List.length m mod bsize a = 0)%nat ->
  exists ct o1 o2, encrypt (VBytes m) o = (Ok ct, o1) /\ decrypt (VBytes ct) o = (Ok m, o2).
Proof.
  intros HO Hm Hne H0. destruct (pad_roundtrip a key P1 o m HO Hm) as (ct & o1 & o2 & E1 & D1).
  rewrite pad1_whole in D1 by (auto; apply bsize_pos). eauto 6.
Qed.
Lemma pad1_injective a key o m m' : pad_object a key P1 o -> bytes_ok m -> bytes_ok m' -> List.length m = List.length m' ->
  result (encrypt (VBytes m) o) = result (encrypt (VBytes m') o) -> m = m'.
Proof. intros HO Hm Hm' HL E. apply (pad_encrypt_iff a key P1 o m m' HO Hm Hm') in E. now apply pad1_equal_length in E. Qed.
Lemma pad1_ambiguous a key o m : pad_object a key P1 o -> bytes_ok m ->
  encrypt (VBytes m) o = encrypt (VBytes (m ++ repeat 0 (pad_zeros (bsize a) m))) o.
Proof.
  intros HO Hm. assert (Hok : bytes_ok (padded P1 (bsize a) m)) by (apply bytes_ok_app; split; [exact Hm | apply padding_ok]).
  apply (pad_encrypt_padded a key P1 o m (padded P1 (bsize a) m)); auto. symmetry. apply pad1_idem.
Qed.
Lemma pad1_empty a key o : pad_object a key P1 o -> encrypt (VBytes []) o = encrypt (VBytes (repeat 0 (bsize a))) o.
Proof. intros HO. apply (pad1_ambiguous a key o [] HO). constructor. Qed.

(** ** Padding mode 2 *)

Fixpoint drop_zeros (l : bytes) : bytes := match l with 0 :: l' => drop_zeros l' | _ => l end.
(** Removing trailing zeros and one byte 0x80. *)
Definition unpad2 (l : bytes) : option bytes :=
  match drop_zeros (rev l) with 0x80 :: r => Some (rev r) | _ => None end.

Lemma drop_zeros_repeat k l : drop_zeros (repeat 0 k ++ l) = drop_zeros l.
Proof. induction k as [|k IH]; [reflexivity|]. exact IH. Qed.
Lemma rev_repeat {A} (x : A) k : rev (repeat x k) = repeat x k.
Proof.
  induction k as [|k IH]; [reflexivity|]. cbn [repeat rev]. rewrite IH. symmetry. apply (repeat_snoc x k).
Qed.
Lemma unpad2_padded n m : unpad2 (padded P2 n m) = Some m.
Proof.
  unfold unpad2, padded, padding. change (m ++ 128 :: repeat 0 (n + pad_zeros n m - 1)) with (m ++ [128] ++ repeat 0 (n + pad_zeros n m - 1)).
  rewrite !rev_app_distr, rev_repeat, drop_zeros_repeat || rewrite !rev_app_distr, rev_repeat, <- app_assoc, drop_zeros_repeat.
  cbn [rev app drop_zeros]. now rewrite rev_involutive.
Qed.
Lemma pad2_removable a key o m : pad_object a key P2 o -> bytes_ok m ->
  exists ct pt o1 o2, encrypt (VBytes m) o = (Ok ct, o1) /\ decrypt (VBytes ct) o = (Ok pt, o2) /\ unpad2 pt = Some m.
Proof.
  intros HO Hm. destruct (pad_roundtrip a key P2 o m HO Hm) as (ct & o1 & o2 & E1 & D1).
  exists ct. eexists. exists o1, o2. split; [exact E1|]. split; [exact D1|]. apply unpad2_padded.
Qed.
Lemma pad2_injective a key o m m' : pad_object a key P2 o -> bytes_ok m -> bytes_ok m' ->
  result (encrypt (VBytes m) o) = result (encrypt (VBytes m') o) -> m = m'.
Proof.
  intros HO Hm Hm' E. apply (pad_encrypt_iff a key P2 o m m' HO Hm Hm') in E.
  apply (f_equal unpad2) in E. rewrite !unpad2_padded in E. congruence.
Qed.

(** Against the procedure of the standard. *)
Lemma pad2_exact a (m : bytes) :
  (m <> [] -> (List.length m mod bsize a = 0)%nat -> padded P2 (bsize a) m = std_pad2 (bsize a) m) /\
  (m = [] \/ (List.length m mod bsize a <> 0)%nat -> padded P2 (bsize a) m = std_pad2 (bsize a) m ++ repeat 0 (bsize a)).
Proof.
  assert (Hn := bsize_pos a). set (n := bsize a) in *. clearbody n. unfold padded, padding, std_pad2, pad_zeros. split.
  - intros Hne H0. destruct m as [|x m]; [contradiction|]. rewrite H0. f_equal. f_equal. f_equal.
    rewrite Nat.sub_0_r, Nat.mod_same by lia. lia.
  - intros H. rewrite <- app_assoc. f_equal. cbn [app]. f_equal. rewrite <- repeat_app. f_equal.
    destruct m as [|x m].
    + cbn [List.length]. rewrite Nat.mod_0_l by lia. lia.
    + destruct H as [H|H]; [discriminate|]. set (L := List.length (x :: m)) in *. pose proof (Nat.mod_upper_bound L n). rewrite (Nat.mod_small (n - L mod n)) by lia. lia.
Qed.
Lemma pad2_standard_iff a (m : bytes) : padded P2 (bsize a) m = std_pad2 (bsize a) m <-> m <> [] /\ (List.length m mod bsize a = 0)%nat.
Proof.
  destruct (pad2_exact a m) as [H1 H2]. split; [|intros [? ?]; auto]. intros E.
  assert (HD : m = [] \/ (List.length m mod bsize a <> 0)%nat \/ (m <> [] /\ (List.length m mod bsize a = 0)%nat)).
  { destruct m as [|x m]; [now left|]. right. destruct (Nat.eq_dec (List.length (x :: m) mod bsize a) 0) as [E0|E0]; [right; split; [discriminate | exact E0] | now left]. }
  destruct HD as [HD|[HD|HD]]; [| |exact HD]; exfalso; assert (H3 := H2 ltac:(tauto)); rewrite E in H3;
  apply (f_equal (@List.length Z)) in H3; rewrite app_length, repeat_length in H3; pose proof (bsize_pos a); lia.
Qed.
Lemma pad2_api_iff a key o m : pad_object a key P2 o -> bytes_ok m ->
  exists ct pt o1 o2, encrypt (VBytes m) o = (Ok ct, o1) /\ decrypt (VBytes ct) o = (Ok pt, o2) /\
    (pt = std_pad2 (bsize a) m <-> m <> [] /\ (List.length m mod bsize a = 0)%nat) /\
    (~ (m <> [] /\ (List.length m mod bsize a = 0)%nat) -> pt = std_pad2 (bsize a) m ++ repeat 0 (bsize a)).
Proof.
  intros HO Hm. destruct (pad_roundtrip a key P2 o m HO Hm) as (ct & o1 & o2 & E1 & D1).
  exists ct, (padded P2 (bsize a) m), o1, o2. split; [exact E1|]. split; [exact D1|]. split; [apply pad2_standard_iff|].
  intros H. apply pad2_exact. destruct m as [|x m]; [now left|]. right. intros H0. apply H. split; [discriminate | exact H0].
Qed.

(** ** Lengths *)

(** The message length rounded up to whole blocks, at least one. *)
Definition whole_length (n : nat) (m : bytes) : nat := match m with [] => n | _ => (List.length m + n - 1) / n * n end.

Lemma padded_len a p m : List.length (padded p (bsize a) m) = (whole_length (bsize a) m + match p with P1 => 0 | P2 => bsize a end)%nat.
Proof.
  assert (Hn := bsize_pos a). unfold padded, padding, pad_zeros, whole_length. rewrite app_length. destruct m as [|x m].
  - cbn [List.length]. destruct p; cbn [List.length]; rewrite repeat_length; lia.
  - set (L := List.length (x :: m)). assert (HL : (0 < L)%nat) by (unfold L; cbn; lia). clearbody L.
    assert (HE : (L + (bsize a - L mod bsize a) mod bsize a = (L + bsize a - 1) / bsize a * bsize a)%nat).
    { destruct a; cbn [bsize] in *; lia. }
    destruct p; cbn [List.length]; rewrite repeat_length; lia.
Qed.

Lemma encrypt_length_pad a key p o m : pad_object a key p o -> bytes_ok m ->
  exists ct o1, encrypt (VBytes m) o = (Ok ct, o1) /\
    List.length ct = (whole_length (bsize a) m + match p with P1 => 0 | P2 => bsize a end)%nat.
Proof.
  intros HO Hm. destruct (pad_object_cases a key p o HO) as (Hc & Ha & Hp & Hcl). rewrite <- padded_len, <- (object_nbs o a Ha).
  destruct (padded_blocks (o_cipher o) p m Hm) as (bl & E & _ & HF & HB & _).
  destruct Hcl as [Hcl|[Hcl [R HR]]].
  - rewrite (sem_ecb_enc o Hc p m Hcl Hp Hm). eexists _, _. split; [reflexivity|]. rewrite HB, E.
    apply (concat_shape (o_cipher o)); [|exact HF | unfold ecb_enc; apply map_length].
    clear -HF Hc. induction HF; [constructor|]. cbn. constructor; [now apply oE_block | exact IHHF].
  - destruct (sem_cbc_enc o Hc R HR p m Hcl Hp Hm) as [-> _]. eexists _, _. split; [reflexivity|]. rewrite HB, E.
    destruct HR as (_ & Hne & HRF). apply (concat_shape (o_cipher o)); [|exact HF | apply cbc_enc_length].
    now apply cbc_enc_blocks.
Qed.
Lemma whole_len c d : bytes_ok d -> List.length (concat (whole (nbs c) d)) = (List.length d / nbs c * nbs c)%nat.
Proof.
  intros Hd. destruct (data_cut c d Hd) as (bl & t & Hcut & HF & _ & Ht & E & _). rewrite (whole_cut _ _ _ _ Hcut).
  assert (HL := cut_len _ _ _ _ Hcut). assert (HC := concat_len _ _ (blocks_lens _ _ HF)). pose proof (nbs_pos c). rewrite <- nbs_bs in *. unfold len in *.
  assert (HD : (List.length d / nbs c = List.length bl)%nat).
  { replace (List.length d) with (List.length bl * nbs c + List.length t)%nat by nia. rewrite Nat.div_add_l by lia. rewrite Nat.div_small by lia. lia. }
  rewrite HD. nia.
Qed.
Lemma decrypt_length_pad a key p o d : pad_object a key p o -> bytes_ok d ->
  exists pt o1, decrypt (VBytes d) o = (Ok pt, o1) /\ List.length pt = (List.length d / bsize a * bsize a)%nat.
Proof.
  intros HO Hd. destruct (pad_object_cases a key p o HO) as (Hc & Ha & Hp & Hcl). rewrite <- (object_nbs o a Ha).
  assert (HW := whole_forall (o_cipher o) d Hd). rewrite <- whole_len by exact Hd.
  destruct Hcl as [Hcl|[Hcl [R HR]]].
  - rewrite (sem_ecb_dec o Hc d Hcl Hd). eexists _, _. split; [reflexivity|].
    apply (concat_shape (o_cipher o)); [|exact HW | unfold ecb_dec; apply map_length].
    clear -HW Hc. induction HW; [constructor|]. cbn. constructor; [now apply oD_block | exact IHHW].
  - destruct (sem_cbc_dec o Hc R HR d Hcl Hd) as [-> _]. eexists _, _. split; [reflexivity|].
    destruct HR as (_ & Hne & HRF). apply (concat_shape (o_cipher o)); [|exact HW | apply cbc_dec_length].
    apply cbc_dec_blk; auto using bxor_block. intros. now apply oD_block.
Qed.
Lemma stream_length a key o m : stream_object a key o -> bytes_ok m ->
  (exists ct o1, encrypt (VBytes m) o = (Ok ct, o1) /\ List.length ct = List.length m) /\
  (exists pt o1, decrypt (VBytes m) o = (Ok pt, o1) /\ List.length pt = List.length m).
Proof.
  intros HO Hm. destruct (stream_object_cases a key o HO) as (Hc & Ha & Hcl). set (c := o_cipher o) in *.
  destruct (data_cut c m Hm) as (bl & t & Hcut & HF & Htok & Ht & E & HB).
  assert (HE : forall out t', Forall (block c) out -> List.length out = List.length bl -> List.length t' = List.length t ->
    List.length (concat (out ++ opt_block t')) = List.length m).
  { intros out t' H1 H2 H3. rewrite E, !concat_app, !concat_opt, !app_length, H3. f_equal. now apply (concat_shape c). }
  assert (Hst : forall b, block c b -> block c (oE c b)) by (intros; now apply oE_block).
  destruct Hcl as [[Hcl Hctr]|[Hcl [R HR]]].
  - rewrite (sem_ctr_dec o m Hcl), (sem_ctr_enc o Hc m Hcl Hctr Hm). fold c. rewrite HB.
    destruct (ctr_split c Hc (o_counter o) bl t Hctr HF Ht) as (t' & HS & Hl & _ & HF').
    enough (HX : List.length (concat (ctr_run (oE c) (o_counter o) 0 (bl ++ opt_block t))) = List.length m) by eauto 8.
    rewrite HS. apply HE; auto. apply ctr_run_length.
  - assert (HRc := HR). destruct HRc as (_ & Hne & HRF). fold c in HRF. destruct Hcl as [Hcl|Hcl].
    + destruct (sem_cfb_enc o Hc R HR m Hcl Hm) as [-> _]. destruct (sem_cfb_dec o Hc R HR m Hcl Hm) as [-> _]. fold c. rewrite HB.
      destruct (cfb_enc_split c Hc R Hne HRF bl t HF Ht) as (t' & HS & Hl & _ & HF').
      destruct (cfb_dec_split c Hc R Hne HRF bl t HF Ht) as (t2 & HS2 & Hl2 & _ & HF2).
      split; eexists _, _; (split; [reflexivity|]); [rewrite HS | rewrite HS2]; apply HE; auto; [apply cfb_enc_length | apply cfb_dec_length].
    + rewrite (sem_ofb_dec o m Hcl). destruct (sem_ofb_enc o Hc R HR m Hcl Hm) as [-> _]. fold c. rewrite HB.
      destruct (ofb_split c Hc R Hne HRF bl t HF Ht) as (t' & HS & Hl & _ & HF').
      enough (HX : List.length (concat (ofb (oE c) R (bl ++ opt_block t))) = List.length m) by eauto 8.
      rewrite HS. apply HE; auto. unfold ofb. rewrite map_length, combine_length, ofb_gamma_length. lia.
Qed.

(** ** A trailing partial block *)
Lemma firstn_bytes_ok k (d : bytes) : bytes_ok d -> bytes_ok (firstn k d).
Proof. intros H. rewrite <- (firstn_skipn k d) in H. now apply bytes_ok_app in H. Qed.
Lemma truncated_dropped a key p o d : pad_object a key p o -> bytes_ok d ->
  decrypt (VBytes d) o = decrypt (VBytes (firstn (List.length d / bsize a * bsize a) d)) o /\
  exists pt o1, decrypt (VBytes d) o = (Ok pt, o1).
Proof.
  intros HO Hd. split; [|destruct (decrypt_length_pad a key p o d HO Hd) as (pt & o1 & H & _); eauto].
  destruct (pad_object_cases a key p o HO) as (Hc & Ha & Hp & Hcl). rewrite <- (object_nbs o a Ha). set (c := o_cipher o) in *.
  assert (Hd' : bytes_ok (firstn (List.length d / nbs c * nbs c) d)) by now apply firstn_bytes_ok.
  assert (HW : whole (nbs c) (firstn (List.length d / nbs c * nbs c) d) = whole (nbs c) d).
  { destruct (data_cut c d Hd) as (bl & t & Hcut & HF & _ & Ht & E & _). rewrite (whole_cut _ _ _ _ Hcut).
    assert (HX := whole_len c d Hd). rewrite (whole_cut _ _ _ _ Hcut) in HX. rewrite <- HX.
    rewrite E, concat_app, firstn_app, Nat.sub_diag, firstn_all, firstn_O, app_nil_r.
    apply (whole_cut c _ _ [] (cut_whole _ _ (blocks_lens _ _ HF) (bs_pos c))). }
  destruct Hcl as [Hcl|[Hcl [R HR]]].
  - rewrite !(sem_ecb_dec o Hc) by assumption. fold c. now rewrite HW.
  - destruct (sem_cbc_dec o Hc R HR d Hcl Hd) as [-> _]. destruct (sem_cbc_dec o Hc R HR _ Hcl Hd') as [-> _]. fold c. now rewrite HW.
Qed.
