(** * The modes: the lemmas behind C16-C24 *)
From Verif Require Import PyBase PyFacts PyState Utils UtilsFacts CipherObj Modes Mac.
From Verif Require Import SpecModes CipherLemmas CipherObjFacts ModeFacts CtrFacts ModeSpecFacts ModeLemmas ModeSem ModeConf.

Notation alg a := (VStr (alg_name a)).

(** ** Round trips *)

Lemma roundtrip_ecb a key kw p m : bytes_len 32 key -> gives_pad kw p -> bytes_ok m ->
  exists o ct, new (alg a) (VBytes key) (VInt MODE_ECB) kw = Ok (NewMode o) /\
    encrypt (VBytes m) o = (Ok ct, o) /\ decrypt (VBytes ct) o = (Ok (padded p (bsize a) m), o).
Proof.
  intros Hk Hp Hm. destruct (new_ecb a key kw p Hk Hp) as (c & Hn & Hmd).
  destruct (rt_ecb (mk ECB c (pad_code p) [] []) (proj1 Hmd) p m eq_refl eq_refl Hm) as (ct & H1 & _ & H2).
  cbn [o_cipher mk] in H2. rewrite (made_nbs _ _ _ Hmd) in H2. eauto.
Qed.
Lemma roundtrip_cbc a key kw p iv m : bytes_len 32 key -> gives_pad kw p -> gives_iv kw iv -> iv_blocks a iv -> bytes_ok m ->
  exists o ct o1 o2, new (alg a) (VBytes key) (VInt MODE_CBC) kw = Ok (NewMode o) /\
    encrypt (VBytes m) o = (Ok ct, o1) /\ decrypt (VBytes ct) o = (Ok (padded p (bsize a) m), o2).
Proof.
  intros Hk Hp Hi Hb Hm. destruct (new_cbc a key kw p iv Hk Hp Hi (proj2 (proj2 Hb))) as (c & Hn & Hmd).
  destruct (rt_cbc (mk CBC c (pad_code p) iv []) (proj1 Hmd) _ p m eq_refl eq_refl (iv_reg _ _ _ _ Hmd Hb _ _ _) Hm)
    as (ct & o1 & o2 & H1 & _ & H2).
  cbn [o_cipher mk] in H2. rewrite (made_nbs _ _ _ Hmd) in H2. eauto 8.
Qed.
Lemma roundtrip_cfb a key kw iv m : bytes_len 32 key -> gives_iv kw iv -> iv_blocks a iv -> bytes_ok m ->
  exists o ct o1 o2, new (alg a) (VBytes key) (VInt MODE_CFB) kw = Ok (NewMode o) /\
    encrypt (VBytes m) o = (Ok ct, o1) /\ decrypt (VBytes ct) o = (Ok m, o2).
Proof.
  intros Hk Hi Hb Hm. destruct (new_cfb a key kw iv Hk Hi (proj2 (proj2 Hb))) as (c & Hn & Hmd).
  destruct (rt_cfb (mk CFB c 0 iv []) (proj1 Hmd) _ m eq_refl (iv_reg _ _ _ _ Hmd Hb _ _ _) Hm)
    as (ct & o1 & o2 & H1 & _ & H2). eauto 8.
Qed.
Lemma roundtrip_ofb a key kw iv m : bytes_len 32 key -> gives_iv kw iv -> iv_blocks a iv -> bytes_ok m ->
  exists o ct o1 o2, new (alg a) (VBytes key) (VInt MODE_OFB) kw = Ok (NewMode o) /\
    encrypt (VBytes m) o = (Ok ct, o1) /\ decrypt (VBytes ct) o = (Ok m, o2).
Proof.
  intros Hk Hi Hb Hm. destruct (new_ofb a key kw iv Hk Hi (proj2 (proj2 Hb))) as (c & Hn & Hmd).
  destruct (rt_ofb (mk OFB c 0 iv []) (proj1 Hmd) _ m eq_refl (iv_reg _ _ _ _ Hmd Hb _ _ _) Hm)
    as (ct & o1 & o2 & H1 & _ & H2). eauto 8.
Qed.
Lemma roundtrip_ctr a key kw iv m : bytes_len 32 key -> gives_iv kw iv -> bytes_len (half a) iv -> bytes_ok m ->
  exists o ct o1 o2, new (alg a) (VBytes key) (VInt MODE_CTR) kw = Ok (NewMode o) /\
    encrypt (VBytes m) o = (Ok ct, o1) /\ decrypt (VBytes ct) o = (Ok m, o2).
Proof.
  intros Hk Hi Hb Hm. destruct (new_ctr a key kw iv Hk Hi (proj1 Hb)) as (c & Hn & Hmd).
  destruct (rt_ctr (mk CTR c 0 iv (iv ++ py_repeat 0 (half a))) (proj1 Hmd) m eq_refl (ctr_start _ _ _ _ Hmd Hb) Hm)
    as (ct & o1 & o2 & H1 & _ & H2). eauto 8.
Qed.

(** ** Conformance of fresh objects *)

Lemma conforms_ecb a key kw p m : bytes_len 32 key -> gives_pad kw p -> bytes_ok m ->
  exists o, new (alg a) (VBytes key) (VInt MODE_ECB) kw = Ok (NewMode o) /\
    encrypt (VBytes m) o = (Ok (concat (ecb_enc (spec_E a key) (blocks (bsize a) (padded p (bsize a) m)))), o) /\
    decrypt (VBytes m) o = (Ok (concat (ecb_dec (spec_D a key) (whole (bsize a) m))), o).
Proof.
  intros Hk Hp Hm. destruct (new_ecb a key kw p Hk Hp) as (c & Hn & Hmd). eexists; split; [exact Hn|].
  rewrite (sem_ecb_enc (mk ECB c (pad_code p) [] []) (proj1 Hmd) p m eq_refl eq_refl Hm).
  rewrite (sem_ecb_dec (mk ECB c (pad_code p) [] []) (proj1 Hmd) m eq_refl Hm). cbn [o_cipher mk].
  destruct (padded_blocks c p m Hm) as (bl & _ & _ & HF & HB & _).
  rewrite HB, (conf_ecb_enc a key c Hmd bl HF), (conf_ecb_dec a key c Hmd _ (whole_forall c m Hm)), <- HB.
  rewrite (made_nbs _ _ _ Hmd). auto.
Qed.

(** The result of a call, forgetting the object. *)
Definition result {S A} (r : res A * S) : res A := fst r.

Lemma conforms_cbc a key kw p iv m : bytes_len 32 key -> gives_pad kw p -> gives_iv kw iv -> iv_blocks a iv -> bytes_ok m ->
  exists o, new (alg a) (VBytes key) (VInt MODE_CBC) kw = Ok (NewMode o) /\
    result (encrypt (VBytes m) o) =
      Ok (concat (cbc_enc (spec_E a key) (blocks (bsize a) iv) (blocks (bsize a) (padded p (bsize a) m)))) /\
    result (decrypt (VBytes m) o) =
      Ok (concat (cbc_dec (spec_D a key) (blocks (bsize a) iv) (whole (bsize a) m))).
Proof.
  intros Hk Hp Hi Hb Hm. destruct (new_cbc a key kw p iv Hk Hp Hi (proj2 (proj2 Hb))) as (c & Hn & Hmd).
  eexists; split; [exact Hn|].
  assert (HR := iv_reg _ _ _ _ Hmd Hb CBC (pad_code p) []).
  destruct (sem_cbc_enc (mk CBC c (pad_code p) iv []) (proj1 Hmd) _ HR p m eq_refl eq_refl Hm) as [-> _].
  destruct (sem_cbc_dec (mk CBC c (pad_code p) iv []) (proj1 Hmd) _ HR m eq_refl Hm) as [-> _]. cbn [result fst o_cipher mk].
  destruct HR as (_ & Hne & HF). cbn [o_cipher mk] in HF.
  destruct (padded_blocks c p m Hm) as (bl & _ & _ & HF' & HB & _).
  rewrite HB, (conf_cbc_enc a key c Hmd _ bl Hne HF HF'), (conf_cbc_dec a key c Hmd _ _ (whole_forall c m Hm)), <- HB.
  rewrite (made_nbs _ _ _ Hmd). auto.
Qed.
Lemma conforms_cfb a key kw iv m : bytes_len 32 key -> gives_iv kw iv -> iv_blocks a iv -> bytes_ok m ->
  exists o, new (alg a) (VBytes key) (VInt MODE_CFB) kw = Ok (NewMode o) /\
    result (encrypt (VBytes m) o) = Ok (concat (cfb_enc (spec_E a key) (blocks (bsize a) iv) (blocks (bsize a) m))) /\
    result (decrypt (VBytes m) o) = Ok (concat (cfb_dec (spec_E a key) (blocks (bsize a) iv) (blocks (bsize a) m))).
Proof.
  intros Hk Hi Hb Hm. destruct (new_cfb a key kw iv Hk Hi (proj2 (proj2 Hb))) as (c & Hn & Hmd).
  eexists; split; [exact Hn|].
  assert (HR := iv_reg _ _ _ _ Hmd Hb CFB 0 []).
  destruct (sem_cfb_enc (mk CFB c 0 iv []) (proj1 Hmd) _ HR m eq_refl Hm) as [-> _].
  destruct (sem_cfb_dec (mk CFB c 0 iv []) (proj1 Hmd) _ HR m eq_refl Hm) as [-> _]. cbn [result fst o_cipher mk].
  destruct HR as (_ & Hne & HF). cbn [o_cipher mk] in HF.
  rewrite (conf_cfb_enc a key c Hmd _ m Hne HF Hm), (conf_cfb_dec a key c Hmd _ m Hne HF Hm).
  rewrite (made_nbs _ _ _ Hmd). auto.
Qed.
Lemma conforms_ofb a key kw iv m : bytes_len 32 key -> gives_iv kw iv -> iv_blocks a iv -> bytes_ok m ->
  exists o, new (alg a) (VBytes key) (VInt MODE_OFB) kw = Ok (NewMode o) /\
    result (encrypt (VBytes m) o) = Ok (concat (ofb (spec_E a key) (blocks (bsize a) iv) (blocks (bsize a) m))) /\
    result (decrypt (VBytes m) o) = Ok (concat (ofb (spec_E a key) (blocks (bsize a) iv) (blocks (bsize a) m))).
Proof.
  intros Hk Hi Hb Hm. destruct (new_ofb a key kw iv Hk Hi (proj2 (proj2 Hb))) as (c & Hn & Hmd).
  eexists; split; [exact Hn|].
  assert (HR := iv_reg _ _ _ _ Hmd Hb OFB 0 []). rewrite sem_ofb_dec by reflexivity.
  destruct (sem_ofb_enc (mk OFB c 0 iv []) (proj1 Hmd) _ HR m eq_refl Hm) as [-> _]. cbn [result fst o_cipher mk].
  destruct HR as (_ & Hne & HF). cbn [o_cipher mk] in HF.
  rewrite (conf_ofb a key c Hmd _ _ Hne HF).
  rewrite (made_nbs _ _ _ Hmd). auto.
Qed.
Lemma conforms_ctr a key kw iv m : bytes_len 32 key -> gives_iv kw iv -> bytes_len (half a) iv -> bytes_ok m ->
  len m <= 256 * Z.of_nat (bsize a) ->
  exists o, new (alg a) (VBytes key) (VInt MODE_CTR) kw = Ok (NewMode o) /\
    result (encrypt (VBytes m) o) = Ok (concat (ctr_mode (spec_E a key) (bsize a) iv (blocks (bsize a) m))) /\
    result (decrypt (VBytes m) o) = Ok (concat (ctr_mode (spec_E a key) (bsize a) iv (blocks (bsize a) m))).
Proof.
  intros Hk Hi Hb Hm Hlen. destruct (new_ctr a key kw iv Hk Hi (proj1 Hb)) as (c & Hn & Hmd).
  eexists; split; [exact Hn|].
  assert (HR := ctr_start _ _ _ _ Hmd Hb). rewrite sem_ctr_dec by reflexivity.
  rewrite (sem_ctr_enc (mk CTR c 0 iv (iv ++ py_repeat 0 (half a))) (proj1 Hmd) m eq_refl HR Hm).
  cbn [result fst o_cipher o_counter mk].
  rewrite (conf_ctr_run a key c Hmd _ _ _ HR), ctr_run_spec; [rewrite (made_nbs _ _ _ Hmd); auto | exact Hb|].
  pose proof (blocks_length c m Hm) as HBL. rewrite <- (made_bs _ _ _ Hmd) in Hlen. pose proof (bs_pos c).
  assert ((len m + bs c - 1) / bs c <= 256); [|lia].
  apply Z.lt_succ_r. apply Z.div_lt_upper_bound; lia.
Qed.

(** ** The keystream of counter mode *)

(** The [i]-th block of a byte string. *)
Definition nth_block (n : nat) (l : bytes) (i : nat) : bytes := firstn n (skipn (i * n) l).

Lemma nth_block_concat n (bl : list bytes) (t : bytes) i : Forall (fun b => List.length b = n) bl -> (i < List.length bl)%nat ->
  nth_block n (concat bl ++ t) i = nth i bl [].
Proof.
  intros HF. revert i; induction HF as [|b bl Hb _ IH]; intros i Hi; cbn [List.length] in Hi; [lia|].
  unfold nth_block. cbn [concat]. rewrite <- app_assoc. destruct i as [|i].
  - cbn [Nat.mul skipn nth]. rewrite firstn_app, Hb, Nat.sub_diag, firstn_O, app_nil_r. apply firstn_all2. lia.
  - cbn [nth]. rewrite skipn_app, skipn_all2 by (cbn [Nat.mul]; lia). cbn [app].
    replace (S i * n - List.length b)%nat with (i * n)%nat by (cbn [Nat.mul]; lia). apply IH. lia.
Qed.

Lemma nth_ctr_run E c j ps i : (i < List.length ps)%nat ->
  nth i (ctr_run E c j ps) [] = bxor (nth i ps []) (E (ctr_next c (j + i))).
Proof.
  revert j i; induction ps as [|p ps IH]; intros j i Hi; cbn [List.length] in Hi; [lia|].
  rewrite ctr_run_cons. destruct i as [|i]; cbn [nth]; [now rewrite Nat.add_0_r|].
  rewrite IH by lia. do 3 f_equal. lia.
Qed.

Lemma bl_lengths c bl : Forall (block c) bl -> Forall (fun b => List.length b = nbs c) bl.
Proof. intros H. eapply Forall_impl; [|exact H]. intros b Hb. now apply block_length. Qed.

(** Ciphertext block [i] of a fresh object. *)
Lemma ctr_block a key kw iv m : bytes_len 32 key -> gives_iv kw iv -> bytes_len (half a) iv -> bytes_ok m ->
  exists o ct c, new (alg a) (VBytes key) (VInt MODE_CTR) kw = Ok (NewMode o) /\
    result (encrypt (VBytes m) o) = Ok ct /\ made a key c /\ block c (iv ++ py_repeat 0 (half a)) /\
    forall i, ((i + 1) * bsize a <= List.length m)%nat ->
    nth_block (bsize a) ct i = bxor (nth_block (bsize a) m i) (oE c (ctr_next (iv ++ py_repeat 0 (half a)) i)) /\
    block c (nth_block (bsize a) m i).
Proof.
  intros Hk Hi Hb Hm. destruct (new_ctr a key kw iv Hk Hi (proj1 Hb)) as (c & Hn & Hmd).
  assert (HR := ctr_start _ _ _ _ Hmd Hb).
  assert (HE := sem_ctr_enc (mk CTR c 0 iv (iv ++ py_repeat 0 (half a))) (proj1 Hmd) m eq_refl HR Hm).
  eexists _, _, c. split; [exact Hn|]. rewrite HE. cbn [result fst o_cipher o_counter mk].
  split; [reflexivity|]. split; [exact Hmd|]. split; [exact HR|].
  intros i Hlen. rewrite <- (made_nbs _ _ _ Hmd) in *.
  destruct (data_cut c m Hm) as (bl & t & Hcut & HF & Htok & Ht & E & HB). rewrite HB.
  assert (Hil : (i < List.length bl)%nat).
  { pose proof (cut_len _ _ _ _ Hcut) as HL. unfold nbs in *. unfold len in HL. pose proof (bs_pos c). nia. }
  assert (HN : nth_block (nbs c) m i = nth i bl []).
  { rewrite E, concat_app, concat_opt. apply nth_block_concat; auto using bl_lengths. }
  destruct (ctr_split c (proj1 Hmd) (iv ++ py_repeat 0 (half a)) bl t HR HF Ht) as (t' & HS & Hl & Ht' & HF').
  rewrite HS, HN, concat_app. rewrite nth_block_concat by (auto using bl_lengths; rewrite ctr_run_length; exact Hil).
  rewrite nth_ctr_run by exact Hil. split; [reflexivity|].
  rewrite Forall_forall in HF. apply HF, nth_In, Hil.
Qed.

Lemma bxor_comm a b : bxor a b = bxor b a.
Proof. rewrite !bxor_eq. apply add_xor_comm. Qed.
Lemma bxor_assoc a b c : bxor a (bxor b c) = bxor (bxor a b) c.
Proof. rewrite !bxor_eq. apply add_xor_assoc. Qed.
Lemma bxor_pair (p q k : bytes) : List.length p = List.length k -> List.length q = List.length k ->
  bxor (bxor p k) (bxor q k) = bxor p q.
Proof.
  intros Hp Hq. rewrite (bxor_comm q k), bxor_assoc. rewrite bxor_cancel by lia. reflexivity.
Qed.
Lemma bxor_inj (p q k : bytes) : List.length p = List.length k -> List.length q = List.length k ->
  bxor p k = bxor q k -> p = q.
Proof. intros Hp Hq H. rewrite <- (bxor_cancel p k), <- (bxor_cancel q k) by lia. now rewrite H. Qed.

Lemma ctr_repeats a key kw iv m i : bytes_len 32 key -> gives_iv kw iv -> bytes_len (half a) iv -> bytes_ok m ->
  ((i + 257) * bsize a <= List.length m)%nat ->
  exists o ct, new (alg a) (VBytes key) (VInt MODE_CTR) kw = Ok (NewMode o) /\
    result (encrypt (VBytes m) o) = Ok ct /\
    bxor (nth_block (bsize a) ct i) (nth_block (bsize a) ct (i + 256)) =
    bxor (nth_block (bsize a) m i) (nth_block (bsize a) m (i + 256)).
Proof.
  intros Hk Hi Hb Hm Hlen. destruct (ctr_block a key kw iv m Hk Hi Hb Hm) as (o & ct & c & Hn & He & Hmd & Hctr & HB).
  exists o, ct. split; [exact Hn|]. split; [exact He|].
  destruct (HB i) as [-> H1]; [nia|]. destruct (HB (i + 256)%nat) as [-> H2]; [nia|]. rewrite ctr_next_256.
  assert (HE := oE_block c _ (proj1 Hmd) (ctr_next_block c _ i Hctr)).
  apply bxor_pair; rewrite !(block_length c) by auto; reflexivity.
Qed.

Lemma ctr_next_inj o c i j : block o c -> ctr_next c i = ctr_next c j -> (i mod 256 = j mod 256)%nat.
Proof. intros _. unfold ctr_next. intros H. apply app_inj_tail in H as [_ H]. lia. Qed.
Lemma ctr_next_mod c i j : (i mod 256 = j mod 256)%nat -> ctr_next c i = ctr_next c j.
Proof. intros H. unfold ctr_next. do 2 f_equal. lia. Qed.

(** The difference of two ciphertext blocks is that of the plaintext blocks exactly when the
    positions agree modulo 256. *)
Lemma ctr_repeats_iff a key kw iv m i j : bytes_len 32 key -> gives_iv kw iv -> bytes_len (half a) iv -> bytes_ok m ->
  ((i + 1) * bsize a <= List.length m)%nat -> ((j + 1) * bsize a <= List.length m)%nat ->
  exists o ct, new (alg a) (VBytes key) (VInt MODE_CTR) kw = Ok (NewMode o) /\
    result (encrypt (VBytes m) o) = Ok ct /\
    (bxor (nth_block (bsize a) ct i) (nth_block (bsize a) ct j) =
     bxor (nth_block (bsize a) m i) (nth_block (bsize a) m j) <-> (i mod 256 = j mod 256)%nat).
Proof.
  intros Hk Hi Hb Hm Hl1 Hl2. destruct (ctr_block a key kw iv m Hk Hi Hb Hm) as (o & ct & c & Hn & He & Hmd & Hctr & HB).
  exists o, ct. split; [exact Hn|]. split; [exact He|].
  destruct (HB i Hl1) as [-> H1]. destruct (HB j Hl2) as [-> H2].
  set (ctr := iv ++ py_repeat 0 (half a)) in *.
  assert (HEi := oE_block c _ (proj1 Hmd) (ctr_next_block c _ i Hctr)).
  assert (HEj := oE_block c _ (proj1 Hmd) (ctr_next_block c _ j Hctr)).
  assert (HC := proj1 Hmd). split.
  - intros H. apply (ctr_next_inj c ctr); [exact Hctr|]. apply (oE_inj c); auto using ctr_next_block.
    set (P := nth_block (bsize a) m i) in *. set (Q := nth_block (bsize a) m j) in *.
    set (K := oE c (ctr_next ctr i)) in *. set (L := oE c (ctr_next ctr j)) in *.
    assert (HX : bxor (bxor P K) (bxor Q L) = bxor (bxor P Q) (bxor K L)).
    { rewrite (bxor_assoc (bxor P K) Q L), <- (bxor_assoc P K Q), (bxor_comm K Q), (bxor_assoc P Q K). now rewrite <- bxor_assoc. }
    rewrite HX in H.
    assert (HPQ : block c (bxor P Q)) by now apply bxor_block. assert (HKL : block c (bxor K L)) by now apply bxor_block.
    assert (HZ : bxor K L = repeat 0 (nbs c)).
    { apply (bxor_inj _ _ (bxor P Q)); rewrite ?repeat_length, ?(block_length c) by auto; try reflexivity.
      rewrite bxor_comm, H, (bxor_comm (repeat 0 (nbs c))), (bxor_eq (bxor P Q) (repeat 0 (nbs c))). symmetry.
      apply (add_xor_zeros_r (bxor P Q) (bs c)). destruct HPQ as [-> _]. lia. }
    apply (bxor_inj _ _ L); rewrite ?(block_length c) by auto; try reflexivity.
    rewrite HZ, !bxor_eq, add_xor_self. destruct HEj as [-> _]. reflexivity.
  - intros H. rewrite (ctr_next_mod ctr i j H). apply bxor_pair; rewrite !(block_length c) by auto; reflexivity.
Qed.
