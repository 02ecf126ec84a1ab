(** * Two messages under the same gamma: the lemmas behind C109 and C110 *)
From Verif Require Import PyBase PyFacts PyState Utils UtilsFacts CipherObj Modes Mac SpecNew.
From Verif Require Import SpecModes CipherLemmas CipherObjFacts ModeFacts CtrFacts ModeSpecFacts ModeLemmas ModeSem ModeConf ModeProps ModeEmpty ModeSim ModeNew ModeHist ModeMore.
Open Scope string_scope.
Open Scope list_scope.
Open Scope Z_scope.

(** Pieces added to the blocks of a gamma. *)
Definition zip_xor (ps gs : list bytes) : list bytes := map (fun p => bxor (fst p) (snd p)) (combine ps gs).

Lemma bxor_app2 (a b c d : bytes) : List.length a = List.length c -> bxor (a ++ b) (c ++ d) = bxor a c ++ bxor b d.
Proof.
  revert c; induction a as [|z a IH]; intros [|y c] H; cbn [List.length] in H; try discriminate; [reflexivity|].
  change (bxor ((z :: a) ++ b) ((y :: c) ++ d)) with (Z.lxor z y :: bxor (a ++ b) (c ++ d)).
  change (bxor (z :: a) (y :: c)) with (Z.lxor z y :: bxor a c). rewrite IH by congruence. reflexivity.
Qed.
Lemma bxor_nil_l (x : bytes) : bxor [] x = [].
Proof. reflexivity. Qed.

Lemma zip_cut c bl t gs : Forall (block c) bl -> Forall (block c) gs -> (List.length t < nbs c)%nat ->
  (List.length (bl ++ opt_block t) <= List.length gs)%nat ->
  concat (zip_xor (bl ++ opt_block t) gs) = bxor (concat (bl ++ opt_block t)) (concat gs).
Proof.
  intros HF. revert gs. induction HF as [|b bl Hb HF IH]; intros gs HG Ht Hl.
  - cbn [app] in *. destruct t as [|z t]; [reflexivity|]. cbn [opt_block] in *. destruct gs as [|g gs]; [cbn in Hl; lia|].
    pose proof (block_length c g (Forall_inv HG)) as HL. unfold zip_xor. cbn [combine map concat fst snd]. rewrite !app_nil_r.
    symmetry. apply bxor_app_l. lia.
  - destruct gs as [|g gs]; [cbn in Hl; lia|]. cbn [app List.length] in *. inversion_clear HG as [|? ? Hg HG'].
    unfold zip_xor. cbn [combine map concat fst snd]. rewrite bxor_app2 by (now rewrite !(block_length c)). f_equal. apply IH; auto. lia.
Qed.

Lemma ofb_zip E R ps k : (List.length ps <= k)%nat -> ofb E R ps = zip_xor ps (ofb_gamma E R k).
Proof.
  unfold ofb, zip_xor. intros H. f_equal. revert R k H. induction ps as [|p ps IH]; intros R k H; [reflexivity|].
  destruct k as [|k]; [cbn in H; lia|]. cbn [List.length ofb_gamma combine]. f_equal. apply IH. cbn in H; lia.
Qed.
Lemma ctr_zip E c ps k : (List.length ps <= k)%nat -> ctr_run E c 0 ps = zip_xor ps (map (fun i => E (ctr_next c i)) (seq 0 k)).
Proof.
  unfold ctr_run, zip_xor. generalize 0%nat as j. revert k. induction ps as [|p ps IH]; intros k j H; [reflexivity|].
  destruct k as [|k]; [cbn in H; lia|]. cbn [List.length seq combine map fst snd]. f_equal. apply IH. cbn in H; lia.
Qed.
Lemma cfb_zip E R ps : forall X, firstn (List.length R) (cfb_enc E (R ++ X) ps) = zip_xor ps (map E R).
Proof.
  revert ps. induction R as [|r R IH]; intros ps X; [destruct ps; reflexivity|]. destruct ps as [|p ps]; [reflexivity|].
  cbn [app cfb_enc hd tl List.length firstn map]. unfold zip_xor. cbn [combine map fst snd]. f_equal. rewrite <- app_assoc. apply IH.
Qed.

(** Both messages under one gamma. *)
Lemma same_gamma (G m1 m2 : bytes) : (List.length m1 <= List.length G)%nat -> (List.length m2 <= List.length G)%nat ->
  bxor (bxor m1 G) (bxor m2 G) = bxor m1 m2.
Proof. apply bxor_reuse. Qed.

Lemma gamma_len c (gs ps : list bytes) bl t : Forall (block c) gs -> Forall (block c) bl -> (List.length t < nbs c)%nat -> ps = bl ++ opt_block t ->
  (List.length ps <= List.length gs)%nat -> (List.length (concat ps) <= List.length (concat gs))%nat.
Proof.
  intros HG HF Ht -> Hl. revert gs HG Hl. induction HF as [|b bl Hb HF IH]; intros gs HG Hl.
  - cbn [app] in *. destruct t as [|z t]; [cbn; lia|]. destruct gs as [|g gs]; [cbn in Hl; lia|].
    pose proof (block_length c g (Forall_inv HG)) as HL. cbn [opt_block concat] in *. rewrite !app_length. cbn [List.length] in *. lia.
  - destruct gs as [|g gs]; [cbn in Hl; lia|]. inversion_clear HG as [|? ? Hg HG'].
    cbn [app concat List.length] in *. rewrite !app_length, (block_length c b Hb), (block_length c g Hg). specialize (IH gs HG' ltac:(lia)). lia.
Qed.

Lemma reuse_pieces c gs m1 m2 : Forall (block c) gs -> bytes_ok m1 -> bytes_ok m2 ->
  (List.length (blocks (nbs c) m1) <= List.length gs)%nat -> (List.length (blocks (nbs c) m2) <= List.length gs)%nat ->
  bxor (concat (zip_xor (blocks (nbs c) m1) gs)) (concat (zip_xor (blocks (nbs c) m2) gs)) = bxor m1 m2.
Proof.
  intros HG H1 H2 L1 L2.
  destruct (data_cut c m1 H1) as (bl1 & t1 & _ & HF1 & _ & Ht1 & E1 & HB1). destruct (data_cut c m2 H2) as (bl2 & t2 & _ & HF2 & _ & Ht2 & E2 & HB2).
  rewrite HB1, HB2 in *. rewrite !(zip_cut c) by auto. rewrite <- E1, <- E2. apply bxor_reuse.
  - rewrite E1. now apply (gamma_len c _ _ bl1 t1).
  - rewrite E2. now apply (gamma_len c _ _ bl2 t2).
Qed.

Lemma two_time a key cl kw o m1 m2 : bytes_ok key -> kw_ok kw -> object_of a key cl kw o ->
  cl = CTR \/ cl = OFB /\ (exists iv, iv_arg a cl kw = VBytes iv /\ iv <> []) -> bytes_ok m1 -> bytes_ok m2 ->
  exists c1 c2 o1 o2, encrypt (VBytes m1) o = (Ok c1, o1) /\ encrypt (VBytes m2) o = (Ok c2, o2) /\ bxor c1 c2 = bxor m1 m2.
Proof.
  intros Hk Hkw HO Hcl Hm1 Hm2. destruct (object_facts a key cl kw o Hk Hkw HO) as (V & Ecl & Ha & _ & HR0).
  assert (Hc := proj1 V). set (c := o_cipher o) in *. set (k := Nat.max (List.length (blocks (nbs c) m1)) (List.length (blocks (nbs c) m2))).
  destruct Hcl as [-> |[-> (iv & Hiv & Hne)]].
  - destruct V as [_ Hctr]. rewrite Ecl in Hctr.
    eexists _, _, _, _. split; [apply (sem_ctr_enc o Hc m1 Ecl Hctr Hm1)|]. split; [apply (sem_ctr_enc o Hc m2 Ecl Hctr Hm2)|].
    fold c. rewrite !(ctr_zip _ _ _ k) by (subst k; lia). apply reuse_pieces; auto; rewrite ?map_length, ?seq_length; try (subst k; lia).
    apply Forall_forall. intros x Hx. apply in_map_iff in Hx as (i & <- & _). apply oE_block; [exact Hc|]. now apply ctr_next_block.
  - destruct (HR0 iv ltac:(tauto) Hiv Hne) as [R HR].
    eexists _, _, _, _. split; [apply (sem_ofb_enc o Hc R HR m1 Ecl Hm1)|]. split; [apply (sem_ofb_enc o Hc R HR m2 Ecl Hm2)|].
    fold c. rewrite !(ofb_zip _ _ _ k) by (subst k; lia). destruct HR as (_ & HRne & HRF). fold c in HRF.
    apply reuse_pieces; auto; rewrite ?ofb_gamma_length; try (subst k; lia).
    apply ofb_gamma_blk; auto. intros; now apply oE_block.
Qed.

(** ** Cipher feedback: as many bytes as the register has *)

Lemma zip_length ps gs : List.length (zip_xor ps gs) = Nat.min (List.length ps) (List.length gs).
Proof. unfold zip_xor. now rewrite map_length, combine_length. Qed.
Lemma zip_firstn k ps gs : List.length gs = k -> zip_xor ps gs = zip_xor (firstn k ps) gs.
Proof.
  unfold zip_xor. intros <-. f_equal. revert ps. induction gs as [|g gs IH]; intros [|p ps]; cbn [List.length firstn combine]; auto. now rewrite <- IH.
Qed.

(** The first [k] pieces are the pieces of the first [k] blocks of bytes. *)
Lemma firstn_pieces c bl t k : Forall (block c) bl -> (List.length t < nbs c)%nat ->
  firstn (k * nbs c) (concat (bl ++ opt_block t)) = concat (firstn k (bl ++ opt_block t)).
Proof.
  intros HF Ht. revert k. induction HF as [|b bl Hb HF IH]; intros [|k].
  - reflexivity.
  - cbn [app]. destruct t as [|z t]; [cbn; apply firstn_nil|]. cbn [opt_block concat firstn]. rewrite firstn_nil. cbn [concat]. rewrite app_nil_r.
    apply firstn_all2. nia.
  - reflexivity.
  - cbn [app concat firstn]. replace (S k * nbs c)%nat with (List.length b + k * nbs c)%nat by (rewrite (block_length c b Hb); lia).
    rewrite firstn_app_2. f_equal. apply IH.
Qed.
Lemma firstn_split (c : cipher_obj) bl t k : Forall (block c) bl -> (List.length t < nbs c)%nat ->
  exists bl' t', firstn k (bl ++ opt_block t) = bl' ++ opt_block t' /\ Forall (block c) bl' /\ (List.length t' < nbs c)%nat.
Proof.
  intros HF Ht. destruct (Nat.le_gt_cases k (List.length bl)) as [H|H].
  - exists (firstn k bl), []. rewrite firstn_app. replace (k - List.length bl)%nat with 0%nat by lia. split; [reflexivity|].
    split; [|pose proof (nbs_pos c); cbn; lia]. rewrite <- (firstn_skipn k bl) in HF. now apply Forall_app in HF.
  - exists bl, t. split; [|now split]. apply firstn_all2. rewrite app_length. destruct t; cbn [opt_block List.length]; lia.
Qed.
Lemma cfb_first c R m : co_ok c -> R <> [] -> Forall (block c) R -> bytes_ok m ->
  firstn (List.length (concat R)) (concat (cfb_enc (oE c) R (blocks (nbs c) m))) =
  bxor (firstn (List.length (concat R)) m) (concat (map (oE c) R)) /\ List.length (concat (map (oE c) R)) = List.length (concat R).
Proof.
  intros Hc Hne HR Hm. destruct (data_cut c m Hm) as (bl & t & _ & HF & _ & Ht & E & HB). rewrite HB. rewrite E.
  assert (HL : List.length (concat R) = (List.length R * nbs c)%nat).
  { pose proof (concat_len _ _ (blocks_lens _ _ HR)) as H. rewrite <- nbs_bs in H. unfold len in H. lia. }
  assert (HG : Forall (block c) (map (oE c) R)).
  { apply Forall_forall. intros x Hx. apply in_map_iff in Hx as (r & <- & Hr). apply oE_block; [exact Hc|]. rewrite Forall_forall in HR. now apply HR. }
  rewrite HL. split.
  - destruct (cfb_enc_split c Hc R Hne HR bl t HF Ht) as (t' & HS & Hl & _ & HF'). rewrite HS.
    rewrite (firstn_pieces c) by (auto; lia). rewrite <- HS. pose proof (cfb_zip (oE c) R (bl ++ opt_block t) []) as HZ. rewrite app_nil_r in HZ. rewrite HZ.
    rewrite (firstn_pieces c) by auto. rewrite (zip_firstn (List.length R)) by apply map_length.
    destruct (firstn_split c bl t (List.length R) HF Ht) as (bl' & t0 & H1 & H2 & H3).
    assert (HLe : (List.length (firstn (List.length R) (bl ++ opt_block t)) <= List.length (map (oE c) R))%nat) by (rewrite firstn_length, map_length; lia).
    rewrite H1 in *. now apply (zip_cut c).
  - pose proof (concat_len _ _ (blocks_lens _ _ HG)) as H. rewrite <- nbs_bs in H. unfold len in H. rewrite map_length in H. lia.
Qed.

Lemma two_time_cfb a key kw iv o m1 m2 : bytes_ok key -> kw_ok kw -> object_of a key CFB kw o ->
  iv_arg a CFB kw = VBytes iv -> iv <> [] -> bytes_ok m1 -> bytes_ok m2 ->
  exists c1 c2 o1 o2, encrypt (VBytes m1) o = (Ok c1, o1) /\ encrypt (VBytes m2) o = (Ok c2, o2) /\
    let z := List.length (o_init_vect o) in bxor (firstn z c1) (firstn z c2) = bxor (firstn z m1) (firstn z m2).
Proof.
  intros Hk Hkw HO Hiv Hne Hm1 Hm2. destruct (object_facts a key CFB kw o Hk Hkw HO) as (V & Ecl & Ha & _ & HR0).
  assert (Hc := proj1 V). destruct (HR0 iv ltac:(tauto) Hiv Hne) as [R HR].
  eexists _, _, _, _. split; [apply (sem_cfb_enc o Hc R HR m1 Ecl Hm1)|]. split; [apply (sem_cfb_enc o Hc R HR m2 Ecl Hm2)|].
  cbv zeta. destruct HR as (-> & HRne & HRF). destruct (cfb_first _ R m1 Hc HRne HRF Hm1) as [-> HL].
  destruct (cfb_first _ R m2 Hc HRne HRF Hm2) as [-> _]. apply bxor_reuse; rewrite firstn_length, HL; lia.
Qed.

(** ** Two counter-mode objects with one key *)

Lemma xor_pairs c (P Q K L : bytes) : block c P -> block c Q -> block c K -> block c L ->
  bxor (bxor P K) (bxor Q L) = bxor P Q <-> K = L.
Proof.
  intros HP HQ HK HL. split.
  - intros H.
    assert (HX : bxor (bxor P K) (bxor Q L) = bxor (bxor P Q) (bxor K L)).
    { rewrite (bxor_assoc (bxor P K) Q L), <- (bxor_assoc P K Q), (bxor_comm K Q), (bxor_assoc P Q K). now rewrite <- bxor_assoc. }
    rewrite HX in H.
    assert (HPQ : block c (bxor P Q)) by now apply bxor_block. assert (HKL : block c (bxor K L)) by now apply bxor_block.
    assert (HZ : bxor K L = repeat 0 (nbs c)).
    { apply (bxor_inj _ _ (bxor P Q)); rewrite ?repeat_length, ?(block_length c) by auto; try reflexivity.
      rewrite bxor_comm, H, (bxor_comm (repeat 0 (nbs c))), (bxor_eq (bxor P Q) (repeat 0 (nbs c))). symmetry.
      apply (add_xor_zeros_r (bxor P Q) (bs c)). destruct HPQ as [-> _]. lia. }
    apply (bxor_inj _ _ L); rewrite ?(block_length c) by auto; try reflexivity.
    rewrite HZ, !bxor_eq, add_xor_self. destruct HL as [-> _]. reflexivity.
  - intros ->. apply bxor_pair; rewrite !(block_length c) by auto; reflexivity.
Qed.

Lemma ctr_next_iv (h : nat) iv1 iv2 i j : (0 < h)%nat ->
  ctr_next (iv1 ++ py_repeat 0 (Z.of_nat h)) i = ctr_next (iv2 ++ py_repeat 0 (Z.of_nat h)) j <-> iv1 = iv2 /\ (i mod 256 = j mod 256)%nat.
Proof.
  intros Hh. unfold py_repeat. rewrite Nat2Z.id. destruct h as [|h]; [lia|].
  assert (HZ : repeat 0 (S h) = repeat 0 h ++ [0]) by apply repeat_cons. rewrite HZ, !app_assoc. unfold ctr_next. rewrite !removelast_last, !last_last.
  split.
  - intros H. apply app_inj_tail in H as [H1 H2]. apply app_inv_tail in H1. split; [exact H1|lia].
  - intros [-> H]. do 2 f_equal. lia.
Qed.

Lemma oE_two a key c1 c2 b : made a key c1 -> made a key c2 -> block c1 b -> oE c1 b = oE c2 b /\ block c2 b.
Proof.
  intros M1 M2 Hb. pose proof (made_bs _ _ _ M1) as B1. pose proof (made_bs _ _ _ M2) as B2.
  assert (Hb2 : block c2 b) by (destruct Hb as [H1 H2]; split; [rewrite H1, B1, B2; reflexivity | exact H2]).
  split; [|exact Hb2]. destruct M1 as (_ & _ & M1), M2 as (_ & _ & M2). now rewrite (proj1 (M1 b Hb)), (proj1 (M2 b Hb2)).
Qed.

Lemma ctr_two a key kw1 kw2 iv1 iv2 m1 m2 i j : bytes_len 32 key -> gives_iv kw1 iv1 -> gives_iv kw2 iv2 ->
  bytes_len (half a) iv1 -> bytes_len (half a) iv2 -> bytes_ok m1 -> bytes_ok m2 ->
  ((i + 1) * bsize a <= List.length m1)%nat -> ((j + 1) * bsize a <= List.length m2)%nat ->
  exists o1 o2 ct1 ct2, new (alg a) (VBytes key) (VInt MODE_CTR) kw1 = Ok (NewMode o1) /\ new (alg a) (VBytes key) (VInt MODE_CTR) kw2 = Ok (NewMode o2) /\
    result (encrypt (VBytes m1) o1) = Ok ct1 /\ result (encrypt (VBytes m2) o2) = Ok ct2 /\
    (bxor (nth_block (bsize a) ct1 i) (nth_block (bsize a) ct2 j) = bxor (nth_block (bsize a) m1 i) (nth_block (bsize a) m2 j) <->
     iv1 = iv2 /\ (i mod 256 = j mod 256)%nat).
Proof.
  intros Hk G1 G2 L1 L2 Hm1 Hm2 Hi Hj.
  destruct (ctr_block a key kw1 iv1 m1 Hk G1 L1 Hm1) as (o1 & ct1 & c1 & Hn1 & He1 & Hmd1 & Hctr1 & HB1).
  destruct (ctr_block a key kw2 iv2 m2 Hk G2 L2 Hm2) as (o2 & ct2 & c2 & Hn2 & He2 & Hmd2 & Hctr2 & HB2).
  exists o1, o2, ct1, ct2. split; [exact Hn1|]. split; [exact Hn2|]. split; [exact He1|]. split; [exact He2|].
  destruct (HB1 i Hi) as [-> P1]. destruct (HB2 j Hj) as [-> P2].
  assert (N1 := ctr_next_block c1 _ i Hctr1). assert (N2 := ctr_next_block c2 _ j Hctr2).
  destruct (oE_two a key c2 c1 _ Hmd2 Hmd1 N2) as [E2 N2']. rewrite E2.
  assert (P2' : block c1 (nth_block (bsize a) m2 j)) by (destruct P2 as [H1 H2]; split; [rewrite H1, (made_bs _ _ _ Hmd1), (made_bs _ _ _ Hmd2); reflexivity | exact H2]).
  assert (HC := proj1 Hmd1).
  rewrite (xor_pairs c1) by (auto using oE_block). split.
  - intros H. apply (oE_inj c1) in H; auto. destruct a; [apply (ctr_next_iv 8) in H | apply (ctr_next_iv 4) in H]; auto; lia.
  - intros H. f_equal. destruct a; [apply (ctr_next_iv 8) | apply (ctr_next_iv 4)]; auto; lia.
Qed.
