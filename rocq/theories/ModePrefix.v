(** * Lemmas for C123, C124: changed ciphertexts, common beginnings *)
From Verif Require Import PyBase PyFacts PyState Utils UtilsFacts CipherObj Modes Mac SpecNew.
From Verif Require Import SpecModes CipherLemmas CipherObjFacts ModeFacts CtrFacts ModeSpecFacts ModeLemmas ModeSem ModeConf ModeProps ModeEmpty ModeSim ModeNew ModeHist ModeMore ModeReuse.
Open Scope list_scope.
Open Scope Z_scope.

(** ** Gamma: what a counter-mode or output-feedback object adds *)

Lemma fuel_le n : (0 < n)%nat -> forall f (m : bytes), (List.length m <= f)%nat -> (List.length (blocks_fuel f n m) <= List.length m)%nat.
Proof.
  intros Hn. induction f as [|f IH]; intros m Hl; [destruct m; cbn in *; lia|]. destruct m as [|x m]; [cbn; lia|]. cbn [blocks_fuel List.length] in *.
  assert (H : (List.length (skipn n (x :: m)) <= List.length m)%nat) by (rewrite skipn_length; cbn [List.length]; lia). specialize (IH (skipn n (x :: m)) ltac:(lia)). lia.
Qed.
Lemma pieces_le c m : (List.length (blocks (nbs c) m) <= List.length m)%nat.
Proof. apply fuel_le; [apply nbs_pos | lia]. Qed.
Lemma fuel_same n : forall f (a b : bytes), List.length a = List.length b -> List.length (blocks_fuel f n a) = List.length (blocks_fuel f n b).
Proof.
  induction f as [|f IH]; intros [|x a] [|y b] H; cbn [List.length] in H; try discriminate; try reflexivity. cbn [blocks_fuel List.length]. f_equal. apply IH. rewrite !skipn_length. cbn [List.length]. lia.
Qed.
Lemma pieces_same n (a b : bytes) : List.length a = List.length b -> List.length (blocks n a) = List.length (blocks n b) /\ List.length (whole n a) = List.length (whole n b).
Proof. intros H. unfold whole, blocks. rewrite !firstn_length, H. now rewrite (fuel_same n _ a b H). Qed.
Lemma pieces_gamma c gs m : Forall (block c) gs -> bytes_ok m -> (List.length (blocks (nbs c) m) <= List.length gs)%nat ->
  concat (zip_xor (blocks (nbs c) m) gs) = bxor m (concat gs).
Proof.
  intros HG Hm Hl. destruct (data_cut c m Hm) as (bl & t & _ & HF & _ & Ht & E & HB). rewrite HB in Hl |- *. rewrite (zip_cut c) by assumption. now rewrite <- E.
Qed.
Lemma blocks_long c gs : Forall (block c) gs -> (List.length gs <= List.length (concat gs))%nat.
Proof. pose proof (nbs_pos c). induction 1 as [|g gs Hg _ IH]; [cbn; lia|]. cbn [concat List.length]. rewrite app_length, (block_length c g Hg). lia. Qed.

Lemma gamma_of a key cl kw o L : bytes_ok key -> kw_ok kw -> object_of a key cl kw o ->
  cl = CTR \/ cl = OFB /\ (exists iv, iv_arg a cl kw = VBytes iv /\ iv <> []) ->
  exists G st, (L <= List.length G)%nat /\ forall m, bytes_ok m -> (List.length m <= L)%nat ->
    encrypt (VBytes m) o = (Ok (bxor m G), st (List.length m)) /\ decrypt (VBytes m) o = (Ok (bxor m G), st (List.length m)).
Proof.
  intros Hk Hkw HO Hcl. destruct (object_facts a key cl kw o Hk Hkw HO) as (V & Ecl & Ha & _ & HR0).
  assert (Hc := proj1 V). set (c := o_cipher o) in *. destruct Hcl as [-> |[-> (iv & Hiv & Hne)]].
  - destruct V as [_ Hctr]. rewrite Ecl in Hctr. set (gs := map (fun i => oE c (ctr_next (o_counter o) i)) (seq 0 L)).
    assert (HG : Forall (block c) gs). { apply Forall_forall. intros x Hx. apply in_map_iff in Hx as (i & <- & _). apply oE_block; [exact Hc|]. now apply ctr_next_block. }
    assert (HL : List.length gs = L) by (unfold gs; now rewrite map_length, seq_length).
    exists (concat gs), (fun k => set_counter o (ctr_next (o_counter o) (List.length (blocks (nbs c) (repeat 0 k))))). split; [rewrite <- HL at 1; exact (blocks_long c gs HG)|]. intros m Hm Hl. pose proof (pieces_le c m). destruct (pieces_same (nbs c) m (repeat 0 (List.length m)) ltac:(now rewrite repeat_length)) as [P1 P2].
    rewrite (sem_ctr_dec o m Ecl), (sem_ctr_enc o Hc m Ecl Hctr Hm). fold c. rewrite (ctr_zip _ _ _ L) by lia. fold gs. rewrite pieces_gamma by (assumption || lia). rewrite <- P1. split; reflexivity.
  - destruct (HR0 iv ltac:(tauto) Hiv Hne) as [R HR]. set (gs := ofb_gamma (oE c) R L). pose proof HR as (_ & HRne & HRF). fold c in HRF.
    assert (HG : Forall (block c) gs) by (apply ofb_gamma_blk; auto; intros; now apply oE_block).
    assert (HL : List.length gs = L) by (unfold gs; apply ofb_gamma_length).
    exists (concat gs), (fun k => set_iv o (concat (shift R (ofb_gamma (oE c) R (List.length (whole (nbs c) (repeat 0 k))))))). split; [rewrite <- HL at 1; exact (blocks_long c gs HG)|]. intros m Hm Hl. pose proof (pieces_le c m). destruct (pieces_same (nbs c) m (repeat 0 (List.length m)) ltac:(now rewrite repeat_length)) as [P1 P2].
    rewrite (sem_ofb_dec o m Ecl). destruct (sem_ofb_enc o Hc R HR m Ecl Hm) as [-> _]. fold c. rewrite (ofb_zip _ _ _ L) by lia. fold gs. rewrite pieces_gamma by (assumption || lia). rewrite <- P2. split; reflexivity.
Qed.

Lemma bxor_swap (a d g : bytes) : bxor (bxor a d) g = bxor (bxor a g) d.
Proof. rewrite <- !bxor_assoc. f_equal. apply bxor_comm. Qed.
Lemma bxor_ok a b : bytes_ok a -> bytes_ok b -> bytes_ok (bxor a b).
Proof. rewrite bxor_eq. apply add_xor_ok. Qed.

Lemma malleable a key cl kw o ct d : bytes_ok key -> kw_ok kw -> object_of a key cl kw o ->
  cl = CTR \/ cl = OFB /\ (exists iv, iv_arg a cl kw = VBytes iv /\ iv <> []) -> bytes_ok ct -> bytes_ok d -> List.length d = List.length ct ->
  exists m o', List.length m = List.length ct /\ decrypt (VBytes ct) o = (Ok m, o') /\ decrypt (VBytes (bxor ct d)) o = (Ok (bxor m d), o').
Proof.
  intros Hk Hkw HO Hcl Hct Hd HL. destruct (gamma_of a key cl kw o (List.length ct) Hk Hkw HO Hcl) as (G & st & HG & H).
  destruct (H ct Hct (le_n _)) as (_ & E1). destruct (H (bxor ct d) (bxor_ok _ _ Hct Hd)) as (_ & E2); [rewrite bxor_length; lia|].
  exists (bxor ct G), (st (List.length ct)). rewrite E1, E2. split; [rewrite bxor_length; lia|]. split; [reflexivity|]. rewrite bxor_swap, bxor_length. now rewrite HL, Nat.min_id.
Qed.

(** ** The vector of cipher block chaining *)

Lemma zip_nil (gs : list bytes) : zip_xor [] gs = [].
Proof. reflexivity. Qed.
Lemma cbc_zip D cs : forall R, R <> [] -> cbc_dec D R cs = zip_xor (map D cs) (R ++ cs).
Proof.
  induction cs as [|x cs IH]; intros R Hne; [reflexivity|]. destruct R as [|r R]; [contradiction|]. cbn [cbc_dec hd tl map]. unfold zip_xor. cbn [app combine map fst snd]. f_equal.
  rewrite IH by (destruct R; discriminate). rewrite <- app_assoc. reflexivity.
Qed.
Lemma zip_whole c ps gs : Forall (block c) ps -> Forall (block c) gs -> (List.length ps <= List.length gs)%nat -> concat (zip_xor ps gs) = bxor (concat ps) (concat gs).
Proof. intros HP HG Hl. pose proof (zip_cut c ps [] gs HP HG (nbs_pos c)) as H. cbn [opt_block] in H. rewrite app_nil_r in H. auto. Qed.

(** What a chaining object computes: [X] depends on the key and the ciphertext only. *)
Lemma cbc_vector o R d : co_ok (o_cipher o) -> reg o R -> o_class o = CBC -> bytes_ok d ->
  result (decrypt (VBytes d) o) = Ok (bxor (concat (map (oD (o_cipher o)) (whole (nbs (o_cipher o)) d))) (o_init_vect o ++ d)).
Proof.
  intros Hc HR Hcl Hd. destruct (sem_cbc_dec o Hc R HR d Hcl Hd) as [-> _]. unfold result. cbn [fst]. f_equal. set (c := o_cipher o) in *. destruct HR as (E & Hne & HF). fold c in HF.
  rewrite cbc_zip by exact Hne. pose proof (whole_forall c d Hd) as HW. rewrite (zip_whole c).
  - rewrite concat_app, <- E. destruct (data_cut c d Hd) as (bl & t & Hcut & _ & _ & _ & Ed & _). rewrite (whole_cut c d bl t Hcut). rewrite Ed, concat_app, concat_opt, app_assoc. symmetry. apply bxor_app_l.
    rewrite (whole_cut c d bl t Hcut) in HW. rewrite app_length, E.
    assert (HL : List.length (concat (map (oD c) bl)) = List.length (concat bl)).
    { apply (concat_shape c); [|exact HW|apply map_length]. apply Forall_forall. intros x Hx. apply in_map_iff in Hx as (y & <- & Hy). apply oD_block; [exact Hc|]. rewrite Forall_forall in HW. auto. }
    lia.
  - apply Forall_forall. intros x Hx. apply in_map_iff in Hx as (y & <- & Hy). apply oD_block; [exact Hc|]. rewrite Forall_forall in HW. auto.
  - apply Forall_app. split; assumption.
  - rewrite map_length, app_length. lia.
Qed.

Lemma differ_zero (x v w t : bytes) : List.length v = List.length w -> (List.length x <= List.length (v ++ t))%nat ->
  bxor x (w ++ t) = bxor (bxor x (v ++ t)) (bxor v w ++ repeat 0 (List.length t)).
Proof.
  intros HL Hx. rewrite <- bxor_assoc. f_equal. rewrite bxor_app2 by (rewrite bxor_length; lia). f_equal.
  - rewrite bxor_assoc. rewrite (bxor_eq (bxor v v)), (bxor_eq v v), add_xor_self, add_xor_comm. unfold py_repeat. symmetry.
    change (repeat 0 (Z.to_nat (len v))) with (py_repeat 0 (len v)). apply add_xor_zeros_r. unfold len. lia.
  - rewrite bxor_eq. symmetry. assert (E : repeat 0 (List.length t) = py_repeat 0 (len t)) by (unfold py_repeat, len; now rewrite Nat2Z.id). rewrite E. apply add_xor_zeros_r. lia.
Qed.

Lemma vector_changed a key kw1 kw2 p1 p2 iv1 iv2 ct : bytes_len 32 key -> gives_pad kw1 p1 -> gives_pad kw2 p2 -> gives_iv kw1 iv1 -> gives_iv kw2 iv2 -> iv_blocks a iv1 -> iv_blocks a iv2 ->
  List.length iv1 = List.length iv2 -> bytes_ok ct ->
  exists o1 o2 m, new (alg a) (VBytes key) (VInt MODE_CBC) kw1 = Ok (NewMode o1) /\ new (alg a) (VBytes key) (VInt MODE_CBC) kw2 = Ok (NewMode o2) /\
    result (decrypt (VBytes ct) o1) = Ok m /\ result (decrypt (VBytes ct) o2) = Ok (bxor m (bxor iv1 iv2 ++ repeat 0 (List.length ct))).
Proof.
  intros Hk Hp1 Hp2 Hi1 Hi2 Hb1 Hb2 HL Hct. destruct (new_cbc a key kw1 p1 iv1 Hk Hp1 Hi1 (proj2 (proj2 Hb1))) as (c1 & Hn1 & Hm1). destruct (new_cbc a key kw2 p2 iv2 Hk Hp2 Hi2 (proj2 (proj2 Hb2))) as (c2 & Hn2 & Hm2).
  assert (HR1 := iv_reg _ _ _ _ Hm1 Hb1 CBC (pad_code p1) []). assert (HR2 := iv_reg _ _ _ _ Hm2 Hb2 CBC (pad_code p2) []).
  pose proof (cbc_vector (mk CBC c1 (pad_code p1) iv1 []) _ ct (proj1 Hm1) HR1 eq_refl Hct) as E1. pose proof (cbc_vector (mk CBC c2 (pad_code p2) iv2 []) _ ct (proj1 Hm2) HR2 eq_refl Hct) as E2.
  cbn [o_cipher o_init_vect mk] in E1, E2. eexists _, _, _. split; [exact Hn1|]. split; [exact Hn2|]. split; [exact E1|]. rewrite E2. f_equal.
  pose proof (made_nbs _ _ _ Hm1) as N1. pose proof (made_nbs _ _ _ Hm2) as N2. rewrite N2, N1. pose proof (whole_forall c1 ct Hct) as HW. rewrite N1 in HW. set (W := whole (bsize a) ct) in *.
  assert (EX : map (oD c2) W = map (oD c1) W).
  { apply map_ext_in. intros b Hb. rewrite Forall_forall in HW. specialize (HW b Hb). destruct Hm1 as (K1 & A1 & S1), Hm2 as (K2 & A2 & S2).
    assert (HW2 : block c2 b) by (apply (block_alg c1); congruence || exact HW). rewrite (proj2 (S1 b HW)), (proj2 (S2 b HW2)). reflexivity. }
  rewrite EX. apply differ_zero; [exact HL|]. rewrite app_length.
  assert (HD : Forall (block c1) (map (oD c1) W)). { apply Forall_forall. intros x Hx. apply in_map_iff in Hx as (y & <- & Hy). apply oD_block; [apply Hm1|]. rewrite Forall_forall in HW. auto. }
  rewrite (concat_shape c1 _ W HD HW (map_length _ _)). unfold W. rewrite <- N1. destruct (data_cut c1 ct Hct) as (bl & t & Hcut & _ & _ & _ & Ed & _). rewrite (whole_cut c1 ct bl t Hcut).
  rewrite Ed, concat_app, app_length. lia.
Qed.

(** ** Common beginnings *)

Lemma app_inj_length {A} (a b x y : list A) : a ++ x = b ++ y -> List.length a = List.length b -> a = b /\ x = y.
Proof. revert b. induction a as [|z a IH]; intros [|w b] E H; cbn in *; try discriminate; [auto|]. injection E as -> E. destruct (IH b E ltac:(lia)) as [-> ->]. auto. Qed.

Section Prefix.
  Variables (c : cipher_obj) (F : list bytes -> list bytes).
  Hypothesis F_first : forall k ps, firstn k (F ps) = F (firstn k ps).
  Hypothesis F_length : forall ps, List.length (F ps) = List.length ps.
  Hypothesis F_block : forall ps, Forall (block c) ps -> Forall (block c) (F ps).
  Hypothesis F_inj : forall ps qs, Forall (block c) ps -> Forall (block c) qs -> F ps = F qs -> ps = qs.

  Lemma concat_blocks_inj (a b : list bytes) : Forall (block c) a -> Forall (block c) b -> concat a = concat b -> a = b.
  Proof.
    intros Ha. revert b. induction Ha as [|x a Hx Ha IH]; intros b Hb E.
    - destruct Hb as [|y b Hy Hb]; [reflexivity|]. pose proof (block_length c y Hy). pose proof (nbs_pos c). destruct y; [cbn in *; lia | discriminate E].
    - destruct Hb as [|y b Hy Hb]; [pose proof (block_length c x Hx); pose proof (nbs_pos c); destruct x; [cbn in *; lia | discriminate E]|].
      cbn [concat] in E. apply app_inj_length in E as [-> E]; [|now rewrite !(block_length c)]. f_equal. auto.
  Qed.
  Lemma first_bytes k m : bytes_ok m -> (k * nbs c <= List.length m)%nat ->
    exists A, Forall (block c) A /\ firstn (k * nbs c) m = concat A /\ firstn (k * nbs c) (concat (F (blocks (nbs c) m))) = concat (F A).
  Proof.
    intros Hm Hk. destruct (data_cut c m Hm) as (bl & t & Hcut & HF & _ & Ht & E & HB). rewrite HB.
    assert (HLb : List.length (concat bl) = (List.length bl * nbs c)%nat).
    { clear - HF. induction HF as [|b bl Hb _ IH]; [reflexivity|]. cbn [concat List.length]. rewrite app_length, IH, (block_length c b Hb). lia. }
    assert (Hkb : (k <= List.length bl)%nat).
    { rewrite E, concat_app, concat_opt, app_length, HLb in Hk. nia. }
    assert (EA : firstn k (bl ++ opt_block t) = firstn k bl) by (rewrite firstn_app; replace (k - List.length bl)%nat with 0%nat by lia; now rewrite firstn_O, app_nil_r).
    exists (firstn k bl). assert (HA : Forall (block c) (firstn k bl)) by (pose proof HF as HF2; rewrite <- (firstn_skipn k bl) in HF2; now apply Forall_app in HF2).
    split; [exact HA|]. split.
    - rewrite E, firstn_pieces by assumption. now rewrite EA.
    - assert (EF : firstn k (F (bl ++ opt_block t)) = F (firstn k bl)) by now rewrite F_first, EA.
      rewrite <- (firstn_skipn k (F (bl ++ opt_block t))), concat_app, EF. pose proof (F_block _ HA) as HFA.
      assert (HL : List.length (concat (F (firstn k bl))) = (k * nbs c)%nat).
      { assert (H : forall l, Forall (block c) l -> List.length (concat l) = (List.length l * nbs c)%nat).
        { clear. induction 1 as [|b bl Hb _ IH]; [reflexivity|]. cbn [concat List.length]. rewrite app_length, IH, (block_length c b Hb). lia. }
        rewrite H by exact HFA. rewrite F_length, firstn_length. f_equal. lia. }
      rewrite firstn_app, HL, Nat.sub_diag, firstn_O, app_nil_r. apply firstn_all2. lia.
  Qed.
  Lemma prefix_law k m1 m2 : bytes_ok m1 -> bytes_ok m2 -> (k * nbs c <= List.length m1)%nat -> (k * nbs c <= List.length m2)%nat ->
    (firstn (k * nbs c) (concat (F (blocks (nbs c) m1))) = firstn (k * nbs c) (concat (F (blocks (nbs c) m2))) <-> firstn (k * nbs c) m1 = firstn (k * nbs c) m2).
  Proof.
    intros H1 H2 L1 L2. destruct (first_bytes k m1 H1 L1) as (A1 & HA1 & E1 & X1). destruct (first_bytes k m2 H2 L2) as (A2 & HA2 & E2 & X2). rewrite E1, E2, X1, X2. split; intros E.
    - f_equal. apply F_inj; try assumption. apply concat_blocks_inj; auto.
    - apply concat_blocks_inj in E; try assumption. now rewrite E.
  Qed.
End Prefix.

Lemma map_first (f : bytes -> bytes) k (ps : list bytes) : firstn k (map f ps) = map f (firstn k ps).
Proof. revert k. induction ps as [|p ps IH]; intros [|k]; cbn [map firstn]; [reflexivity..|]. now rewrite IH. Qed.
Lemma cbc_first E k : forall ps R, firstn k (cbc_enc E R ps) = cbc_enc E R (firstn k ps).
Proof. induction k as [|k IH]; intros [|p ps] R; try reflexivity. cbn [cbc_enc firstn]. now rewrite IH. Qed.
Lemma cfb_first' E k : forall ps R, firstn k (cfb_enc E R ps) = cfb_enc E R (firstn k ps).
Proof. induction k as [|k IH]; intros [|p ps] R; try reflexivity. cbn [cfb_enc firstn]. now rewrite IH. Qed.

Section Objects.
  Variable c : cipher_obj.
  Hypothesis Hc : co_ok c.
  Let stays b (H : block c b) : block c (oE c b) := oE_block c b Hc H.
  Let inv b (H : block c b) : oD c (oE c b) = b := oD_oE c b Hc H.

  Lemma ecb_prefix k m1 m2 : bytes_ok m1 -> bytes_ok m2 -> (k * nbs c <= List.length m1)%nat -> (k * nbs c <= List.length m2)%nat ->
    (firstn (k * nbs c) (concat (ecb_enc (oE c) (blocks (nbs c) m1))) = firstn (k * nbs c) (concat (ecb_enc (oE c) (blocks (nbs c) m2))) <-> firstn (k * nbs c) m1 = firstn (k * nbs c) m2).
  Proof.
    apply prefix_law.
    - intros j ps. apply map_first.
    - intros ps. apply map_length.
    - intros ps HP. unfold ecb_enc. induction HP; [constructor|]. cbn [map]. constructor; auto.
    - intros ps qs HP HQ E. rewrite <- (ecb_inv (block c) (oE c) (oD c) inv ps HP), <- (ecb_inv (block c) (oE c) (oD c) inv qs HQ). now rewrite E.
  Qed.
  Variable R : list bytes.
  Hypothesis HR : R <> [].
  Hypothesis HB : Forall (block c) R.
  Lemma cbc_prefix k m1 m2 : bytes_ok m1 -> bytes_ok m2 -> (k * nbs c <= List.length m1)%nat -> (k * nbs c <= List.length m2)%nat ->
    (firstn (k * nbs c) (concat (cbc_enc (oE c) R (blocks (nbs c) m1))) = firstn (k * nbs c) (concat (cbc_enc (oE c) R (blocks (nbs c) m2))) <-> firstn (k * nbs c) m1 = firstn (k * nbs c) m2).
  Proof.
    apply prefix_law.
    - intros j ps. apply cbc_first.
    - intros ps. apply cbc_enc_length.
    - intros ps HP. apply cbc_enc_blk; auto using bxor_block.
    - intros ps qs HP HQ E. rewrite <- (cbc_inv (nbs c) (block c) (oE c) (oD c)) with (R := R) (ps := ps) by auto using bxor_block, block_length.
      rewrite <- (cbc_inv (nbs c) (block c) (oE c) (oD c)) with (R := R) (ps := qs) by auto using bxor_block, block_length. now rewrite E.
  Qed.
  Lemma cfb_prefix k m1 m2 : bytes_ok m1 -> bytes_ok m2 -> (k * nbs c <= List.length m1)%nat -> (k * nbs c <= List.length m2)%nat ->
    (firstn (k * nbs c) (concat (cfb_enc (oE c) R (blocks (nbs c) m1))) = firstn (k * nbs c) (concat (cfb_enc (oE c) R (blocks (nbs c) m2))) <-> firstn (k * nbs c) m1 = firstn (k * nbs c) m2).
  Proof.
    assert (I : forall ps, Forall (block c) ps -> cfb_dec (oE c) R (cfb_enc (oE c) R ps) = ps).
    { intros ps HP. pose proof (cfb_inv (nbs c) (block c) (oE c) (oD c)) as H. specialize (H (block_length c) stays (bxor_block c) inv R ps []). cbn [opt_block] in H. rewrite app_nil_r in H. apply H; auto using bxor_block, nbs_pos. }
    apply prefix_law.
    - intros j ps. apply cfb_first'.
    - intros ps. apply cfb_enc_length.
    - intros ps HP. apply cfb_enc_blk; auto using bxor_block.
    - intros ps qs HP HQ E. rewrite <- (I ps HP), <- (I qs HQ). now rewrite E.
  Qed.
End Objects.

Lemma firstn_padded p n j (m : bytes) : (j <= List.length m)%nat -> firstn j (padded p n m) = firstn j m.
Proof. intros H. unfold padded. rewrite firstn_app. replace (j - List.length m)%nat with 0%nat by lia. now rewrite firstn_O, app_nil_r. Qed.
Lemma padded_ok p n m : bytes_ok m -> bytes_ok (padded p n m).
Proof. intros H. apply bytes_ok_app. split; [exact H | apply padding_ok]. Qed.
Lemma padded_le p n (m : bytes) : (List.length m <= List.length (padded p n m))%nat.
Proof. unfold padded. rewrite app_length. lia. Qed.
Lemma gamma_prefix (j : nat) (G m1 m2 : bytes) : (j <= List.length G)%nat -> (j <= List.length m1)%nat -> (j <= List.length m2)%nat ->
  firstn j (bxor m1 G) = firstn j (bxor m2 G) <-> firstn j m1 = firstn j m2.
Proof.
  intros HG H1 H2. rewrite !bxor_eq, <- !add_xor_firstn, <- !bxor_eq. split; [|now intros ->]. intros E. apply (f_equal (fun x => bxor x (firstn j G))) in E.
  rewrite !bxor_cancel in E by (rewrite !firstn_length; lia). exact E.
Qed.

(** Two messages encrypted from one state: as far as the ciphertexts agree, the messages do, and conversely. *)
Lemma common_prefix a key cl kw o m1 m2 k : bytes_ok key -> kw_ok kw -> object_of a key cl kw o ->
  (cl = CBC \/ cl = CFB \/ cl = OFB -> exists iv, iv_arg a cl kw = VBytes iv /\ iv <> []) -> bytes_ok m1 -> bytes_ok m2 ->
  (k * bsize a <= List.length m1)%nat -> (k * bsize a <= List.length m2)%nat ->
  exists c1 c2 o1 o2, encrypt (VBytes m1) o = (Ok c1, o1) /\ encrypt (VBytes m2) o = (Ok c2, o2) /\
    (firstn (k * bsize a) c1 = firstn (k * bsize a) c2 <-> firstn (k * bsize a) m1 = firstn (k * bsize a) m2).
Proof.
  intros Hk Hkw HO Hiv H1 H2 L1 L2. destruct (object_facts a key cl kw o Hk Hkw HO) as (V & Ecl & Ha & Hpad & HR0). rewrite <- (object_nbs o a Ha) in *. set (n := nbs (o_cipher o)) in *.
  assert (GAM : cl = CTR \/ cl = OFB -> exists c1 c2 o1 o2, encrypt (VBytes m1) o = (Ok c1, o1) /\ encrypt (VBytes m2) o = (Ok c2, o2) /\ (firstn (k * n) c1 = firstn (k * n) c2 <-> firstn (k * n) m1 = firstn (k * n) m2)).
  { intros Hcl. destruct (gamma_of a key cl kw o (Nat.max (List.length m1) (List.length m2)) Hk Hkw HO) as (G & st & HG & H); [destruct Hcl as [-> | ->]; [now left | right; split; [reflexivity | apply Hiv; auto]]|].
    destruct (H m1 H1 ltac:(lia)) as [E1 _]. destruct (H m2 H2 ltac:(lia)) as [E2 _]. eexists _, _, _, _. split; [exact E1|]. split; [exact E2|]. apply gamma_prefix; lia. }
  destruct V as [Hc HV]. rewrite Ecl in HV. destruct cl; try (apply GAM; tauto).
  - destruct HV as [p Hp]. rewrite (sem_ecb_enc o Hc p m1 Ecl Hp H1), (sem_ecb_enc o Hc p m2 Ecl Hp H2). eexists _, _, _, _. split; [reflexivity|]. split; [reflexivity|].
    rewrite <- (firstn_padded p n (k * n) m1 L1), <- (firstn_padded p n (k * n) m2 L2). pose proof (padded_le p n m1). pose proof (padded_le p n m2). apply ecb_prefix; auto using padded_ok; unfold n in *; lia.
  - destruct HV as [[p Hp] _]. destruct (Hiv ltac:(tauto)) as (iv & E & N). destruct (HR0 iv ltac:(tauto) E N) as [R HR]. pose proof HR as (_ & HR2 & HR3).
    destruct (sem_cbc_enc o Hc R HR p m1 Ecl Hp H1) as [-> _]. destruct (sem_cbc_enc o Hc R HR p m2 Ecl Hp H2) as [-> _]. eexists _, _, _, _. split; [reflexivity|]. split; [reflexivity|].
    rewrite <- (firstn_padded p n (k * n) m1 L1), <- (firstn_padded p n (k * n) m2 L2). pose proof (padded_le p n m1). pose proof (padded_le p n m2). apply cbc_prefix; auto using padded_ok; unfold n in *; lia.
  - destruct (Hiv ltac:(tauto)) as (iv & E & N). destruct (HR0 iv ltac:(tauto) E N) as [R HR]. pose proof HR as (_ & HR2 & HR3).
    destruct (sem_cfb_enc o Hc R HR m1 Ecl H1) as [-> _]. destruct (sem_cfb_enc o Hc R HR m2 Ecl H2) as [-> _]. eexists _, _, _, _. split; [reflexivity|]. split; [reflexivity|]. now apply cfb_prefix.
Qed.

(** Electronic codebook: equal blocks, wherever they stand. *)
Lemma ecb_blocks a key kw o m1 m2 i j : bytes_ok key -> kw_ok kw -> object_of a key ECB kw o -> bytes_ok m1 -> bytes_ok m2 ->
  ((i + 1) * bsize a <= List.length m1)%nat -> ((j + 1) * bsize a <= List.length m2)%nat ->
  exists c1 c2, encrypt (VBytes m1) o = (Ok c1, o) /\ encrypt (VBytes m2) o = (Ok c2, o) /\
    (nth_block (bsize a) c1 i = nth_block (bsize a) c2 j <-> nth_block (bsize a) m1 i = nth_block (bsize a) m2 j).
Proof.
  intros Hk Hkw HO H1 H2 L1 L2. destruct (object_facts a key ECB kw o Hk Hkw HO) as (V & Ecl & Ha & _ & _). destruct V as [Hc HV]. rewrite Ecl in HV. destruct HV as [p Hp].
  rewrite <- (object_nbs o a Ha) in *. set (c := o_cipher o) in *. set (n := nbs c) in *.
  rewrite (sem_ecb_enc o Hc p m1 Ecl Hp H1), (sem_ecb_enc o Hc p m2 Ecl Hp H2). fold c. fold n. eexists _, _. split; [reflexivity|]. split; [reflexivity|].
  assert (NB : forall m q, bytes_ok m -> ((q + 1) * n <= List.length m)%nat -> block c (nth_block n m q) /\ nth_block n (concat (ecb_enc (oE c) (blocks n (padded p n m)))) q = oE c (nth_block n m q)).
  { intros m q Hm HL. destruct (padded_blocks c p m Hm) as (bl & E & _ & HF & HB & _). fold n in E, HB. rewrite HB. pose proof (nbs_pos c) as Hn. fold n in Hn.
    assert (EM : nth_block n m q = nth_block n (padded p n m) q).
    { unfold nth_block, padded. rewrite skipn_app, firstn_app, skipn_length. replace (n - (List.length m - q * n))%nat with 0%nat by lia. now rewrite firstn_O, app_nil_r. }
    assert (HQ : (q < List.length bl)%nat).
    { pose proof (padded_le p n m) as HP. rewrite E in HP. assert (HLb : List.length (concat bl) = (List.length bl * n)%nat).
      { clear - HF. induction HF as [|b bl Hb _ IH]; [reflexivity|]. cbn [concat List.length]. rewrite app_length, IH, (block_length c b Hb). unfold n. lia. }
      rewrite HLb in HP. nia. }
    assert (N1 : nth_block n (padded p n m) q = nth q bl []). { rewrite E, <- (app_nil_r (concat bl)). apply nth_block_concat; [now apply bl_lengths | exact HQ]. }
    assert (HBq : block c (nth q bl [])) by (rewrite Forall_forall in HF; apply HF; now apply nth_In).
    rewrite EM, N1. split; [exact HBq|]. unfold ecb_enc. rewrite <- (app_nil_r (concat (map (oE c) bl))). rewrite nth_block_concat; [| |now rewrite map_length].
    - rewrite (nth_indep _ [] (oE c [])) by now rewrite map_length. apply map_nth.
    - apply Forall_forall. intros x Hx. apply in_map_iff in Hx as (y & <- & Hy). apply (block_length c). apply oE_block; [exact Hc|]. rewrite Forall_forall in HF. auto. }
  destruct (NB m1 i H1 L1) as [B1 ->]. destruct (NB m2 j H2 L2) as [B2 ->]. split; [|now intros ->]. apply oE_inj; auto.
Qed.
