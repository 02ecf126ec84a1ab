(** * Lemmas for C139: encryption and decryption are inverse to each other, in both directions and with the states *)
From Verif Require Import PyBase PyFacts PyState Utils UtilsFacts CipherObj Modes Mac SpecNew.
From Verif Require Import SpecModes CipherLemmas CipherObjFacts ModeFacts CtrFacts ModeSpecFacts ModeLemmas ModeSem ModeConf ModeProps ModeEmpty ModeSim ModeNew ModeHist ModeMore ModeReuse ModePrefix WeakKeys.
Open Scope string_scope.
Open Scope list_scope.
Open Scope Z_scope.

Section InverseOther.
  Variables (n : nat) (blk : bytes -> Prop) (E D : bytes -> bytes).
  Hypothesis blk_len : forall b, blk b -> List.length b = n.
  Hypothesis stays : forall b, blk b -> blk (E b).
  Hypothesis staysD : forall b, blk b -> blk (D b).
  Hypothesis inv : forall b, blk b -> E (D b) = b.
  Lemma cbc_inv' cs : Forall blk cs -> forall R, R <> [] -> Forall blk R -> cbc_enc E R (cbc_dec D R cs) = cs.
  Proof.
    induction 1 as [|x cs Hx _ IH]; intros R Hne HR; [reflexivity|]. cbn [cbc_dec cbc_enc]. assert (Hh := hd_forall blk R Hne HR).
    rewrite bxor_cancel by (rewrite !blk_len by auto; lia). rewrite inv by exact Hx. f_equal. apply IH; auto using tl_snoc_forall, tl_snoc_ne.
  Qed.
End InverseOther.
Section InverseFeedback.
  Variables (n : nat) (blk : bytes -> Prop) (E : bytes -> bytes).
  Hypothesis blk_len : forall b, blk b -> List.length b = n.
  Hypothesis stays : forall b, blk b -> blk (E b).
  Lemma cfb_inv' cs t : Forall blk cs -> (List.length t < n)%nat -> forall R, R <> [] -> Forall blk R ->
    cfb_enc E R (cfb_dec E R (cs ++ opt_block t)) = cs ++ opt_block t.
  Proof.
    intros HF Ht. induction HF as [|x cs Hx _ IH]; intros R Hne HR.
    - assert (Hh := hd_forall blk R Hne HR). destruct t; [reflexivity|]. cbn [app opt_block cfb_enc cfb_dec]. rewrite bxor_cancel; [reflexivity|]. rewrite (blk_len (E _)) by auto. lia.
    - assert (Hh := hd_forall blk R Hne HR). cbn [app cfb_enc cfb_dec]. rewrite bxor_cancel by (rewrite !blk_len by auto; lia). f_equal. apply IH; auto using tl_snoc_forall, tl_snoc_ne.
  Qed.
End InverseFeedback.

Lemma blocks_inj c (a b : list bytes) : Forall (block c) a -> Forall (block c) b -> concat a = concat b -> a = b.
Proof.
  intros Ha. revert b. induction Ha as [|x a Hx _ IH]; intros b Hb E; inversion Hb as [|y b' Hy Hb']; subst; [reflexivity| | |].
  - cbn [concat] in E. apply (f_equal (@List.length Z)) in E. rewrite app_length, (block_length c y Hy) in E. pose proof (nbs_pos c). cbn in E. lia.
  - cbn [concat] in E. apply (f_equal (@List.length Z)) in E. rewrite app_length, (block_length c x Hx) in E. pose proof (nbs_pos c). cbn in E. lia.
  - cbn [concat] in E. apply app_inj_length in E as [-> E]; [|now rewrite (block_length c x Hx), (block_length c y Hy)]. f_equal. now apply IH.
Qed.

Section Onto.
  Variable o : mode_obj.
  Hypothesis Hc : co_ok (o_cipher o).
  Let c := o_cipher o.
  Let n := nbs c.
  Let stays b (H : block c b) : block c (oE c b) := oE_block c b Hc H.
  Let staysD b (H : block c b) : block c (oD c b) := oD_block c b Hc H.
  Let inv b (H : block c b) : oD c (oE c b) = b := oD_oE c b Hc H.
  Let inv' b (H : block c b) : oE c (oD c b) = b := oE_oD c b Hc H.

  Lemma onto_ecb p m ct o' : o_class o = ECB -> o_pad_mode o = pad_code p -> bytes_ok m -> bytes_ok ct -> (List.length ct mod n = 0)%nat ->
    (encrypt (VBytes m) o = (Ok ct, o') <-> decrypt (VBytes ct) o = (Ok (padded p n m), o')).
  Proof.
    intros Hcl Hp Hm Hct HL. rewrite (sem_ecb_enc o Hc p m Hcl Hp Hm), (sem_ecb_dec o Hc ct Hcl Hct). fold c. fold n.
    destruct (padded_blocks c p m Hm) as (bl & E & _ & HF & HB & _). fold n in E, HB. rewrite HB. destruct (whole_message c ct Hct HL) as (cs & Ec & HFc & HW). fold n in HW. rewrite HW, E.
    assert (HFD : Forall (block c) (ecb_dec (oD c) cs)) by (apply Forall_map; eapply Forall_impl; [|exact HFc]; auto).
    assert (HFE : Forall (block c) (ecb_enc (oE c) bl)) by (apply Forall_map; eapply Forall_impl; [|exact HF]; auto). split; intros H.
    - assert (H1 : concat (ecb_enc (oE c) bl) = concat cs) by congruence. assert (H2 : o = o') by congruence. subst o'. apply (blocks_inj c) in H1; [|assumption|assumption]. rewrite <- H1.
      rewrite (ecb_inv (block c) (oE c) (oD c)); auto.
    - assert (H1 : concat (ecb_dec (oD c) cs) = concat bl) by congruence. assert (H2 : o = o') by congruence. subst o'. apply (blocks_inj c) in H1; [|assumption|assumption]. rewrite <- H1.
      replace (ecb_enc (oE c) (ecb_dec (oD c) cs)) with cs; [now rewrite Ec|]. unfold ecb_enc, ecb_dec. rewrite map_map. rewrite <- (map_id cs) at 1. apply map_ext_in. intros b Hb. symmetry. apply inv'. rewrite Forall_forall in HFc. auto.
  Qed.

  Section Reg.
    Variable R : list bytes.
    Hypothesis HR : reg o R.
    Lemma onto_cbc p m ct o' : o_class o = CBC -> o_pad_mode o = pad_code p -> bytes_ok m -> bytes_ok ct -> (List.length ct mod n = 0)%nat ->
      (encrypt (VBytes m) o = (Ok ct, o') <-> decrypt (VBytes ct) o = (Ok (padded p n m), o')).
    Proof.
      intros Hcl Hp Hm Hct HL. destruct (sem_cbc_enc o Hc R HR p m Hcl Hp Hm) as [-> _]. destruct (sem_cbc_dec o Hc R HR ct Hcl Hct) as [-> _]. fold c. fold n.
      destruct (padded_blocks c p m Hm) as (bl & E & _ & HF & HB & _). fold n in E, HB. rewrite HB. destruct (whole_message c ct Hct HL) as (cs & Ec & HFc & HW). fold n in HW. rewrite HW, E.
      pose proof HR as (HR1 & HR2 & HR3).
      assert (HFD : Forall (block c) (cbc_dec (oD c) R cs)) by (apply cbc_dec_blk; auto using bxor_block).
      assert (HFE : Forall (block c) (cbc_enc (oE c) R bl)) by (apply cbc_enc_blk; auto using bxor_block). split; intros H.
      - assert (H1 : concat (cbc_enc (oE c) R bl) = concat cs) by congruence. apply (blocks_inj c) in H1; [|assumption|assumption]. rewrite H1 in H. assert (H2 : set_iv o (concat (shift R cs)) = o') by congruence.
        rewrite H2. rewrite <- H1. rewrite (cbc_inv (nbs c) (block c) (oE c) (oD c)); auto using bxor_block, block_length.
      - assert (H1 : concat (cbc_dec (oD c) R cs) = concat bl) by congruence. assert (H2 : set_iv o (concat (shift R cs)) = o') by congruence. apply (blocks_inj c) in H1; [|assumption|assumption]. rewrite <- H1.
        rewrite (cbc_inv' (nbs c) (block c) (oE c) (oD c)); auto using block_length. now rewrite H2, Ec.
    Qed.
    Lemma fwd_cfb m ct o' : o_class o = CFB -> bytes_ok m -> encrypt (VBytes m) o = (Ok ct, o') -> decrypt (VBytes ct) o = (Ok m, o').
    Proof.
      intros Hcl Hm H. destruct (sem_cfb_enc o Hc R HR m Hcl Hm) as [EN _]. fold c in EN. fold n in EN. rewrite EN in H.
      destruct (data_cut c m Hm) as (bl & t & Hcut & HF & Htok & Ht & E & HB). fold n in HB, Ht. rewrite HB in H. pose proof (whole_cut _ _ _ _ Hcut) as HW. fold n in HW. rewrite HW in H.
      pose proof HR as (HR1 & HR2 & HR3). destruct (cfb_enc_split c Hc R HR2 HR3 bl t HF Ht) as (t' & HS & Hl & Ht' & HF').
      destruct (stream_ok o Hc _ t t' HF' Hl Ht (Ht' Htok)) as (Hok & HB' & HW'). fold c in HB', HW'. fold n in HB', HW'. rewrite <- HS in Hok, HB', HW'.
      assert (H1 : concat (cfb_enc (oE c) R (bl ++ opt_block t)) = ct) by congruence. rewrite H1 in H, Hok, HB', HW'. assert (H2 : set_iv o (concat (shift R (cfb_enc (oE c) R bl))) = o') by congruence.
      destruct (sem_cfb_dec o Hc R HR ct Hcl Hok) as [-> _]. fold c. fold n. rewrite HB', HW', H2, (cfb_inv (nbs c) (block c) (oE c) (oD c)); auto using bxor_block, block_length. now rewrite <- E.
    Qed.
    Lemma bwd_cfb m ct o' : o_class o = CFB -> bytes_ok ct -> decrypt (VBytes ct) o = (Ok m, o') -> encrypt (VBytes m) o = (Ok ct, o').
    Proof.
      intros Hcl Hm H. destruct (sem_cfb_dec o Hc R HR ct Hcl Hm) as [EN _]. fold c in EN. fold n in EN. rewrite EN in H.
      destruct (data_cut c ct Hm) as (bl & t & Hcut & HF & Htok & Ht & E & HB). fold n in HB, Ht. rewrite HB in H. pose proof (whole_cut _ _ _ _ Hcut) as HW. fold n in HW. rewrite HW in H.
      pose proof HR as (HR1 & HR2 & HR3). destruct (cfb_dec_split c Hc R HR2 HR3 bl t HF Ht) as (t' & HS & Hl & Ht' & HF').
      destruct (stream_ok o Hc _ t t' HF' Hl Ht (Ht' Htok)) as (Hok & HB' & HW'). fold c in HB', HW'. fold n in HB', HW'. rewrite <- HS in Hok, HB', HW'.
      assert (H1 : concat (cfb_dec (oE c) R (bl ++ opt_block t)) = m) by congruence. rewrite H1 in H, Hok, HB', HW'. assert (H2 : set_iv o (concat (shift R bl)) = o') by congruence.
      destruct (sem_cfb_enc o Hc R HR m Hcl Hok) as [-> _]. fold c. fold n. rewrite HB', HW'.
      rewrite (cfb_inv' (nbs c) (block c) (oE c) (block_length c) stays bl t HF Ht R HR2 HR3).
      pose proof (cfb_inv' (nbs c) (block c) (oE c) (block_length c) stays bl [] HF ltac:(pose proof (nbs_pos c); cbn; lia) R HR2 HR3) as HI. cbn [opt_block] in HI. rewrite app_nil_r in HI. rewrite HI, H2. now rewrite <- E.
    Qed.
    Lemma fwd_ofb m ct o' : o_class o = OFB -> bytes_ok m -> encrypt (VBytes m) o = (Ok ct, o') -> encrypt (VBytes ct) o = (Ok m, o') /\ bytes_ok ct.
    Proof.
      intros Hcl Hm H. destruct (sem_ofb_enc o Hc R HR m Hcl Hm) as [EN _]. fold c in EN. fold n in EN. rewrite EN in H.
      destruct (data_cut c m Hm) as (bl & t & Hcut & HF & Htok & Ht & E & HB). fold n in HB, Ht. rewrite HB in H. pose proof (whole_cut _ _ _ _ Hcut) as HW. fold n in HW. rewrite HW in H.
      pose proof HR as (HR1 & HR2 & HR3). destruct (ofb_split c Hc R HR2 HR3 bl t HF Ht) as (t' & HS & Hl & Ht' & HF').
      destruct (stream_ok o Hc _ t t' HF' Hl Ht (Ht' Htok)) as (Hok & HB' & HW'). fold c in HB', HW'. fold n in HB', HW'. rewrite <- HS in Hok, HB', HW'.
      assert (H1 : concat (ofb (oE c) R (bl ++ opt_block t)) = ct) by congruence. rewrite H1 in H, Hok, HB', HW'. split; [|exact Hok].
      destruct (sem_ofb_enc o Hc R HR ct Hcl Hok) as [-> _]. fold c. fold n. rewrite HB', HW', (ofb_inv (nbs c) (block c) (oE c) (oD c)); auto using bxor_block, block_length.
      assert (HLn : List.length (ofb (oE c) R bl) = List.length bl).
      { unfold ofb. rewrite map_length, combine_length. assert (HG : forall k S, List.length (ofb_gamma (oE c) S k) = k) by (induction k; intros S; cbn; auto). rewrite HG. lia. }
      rewrite HLn. rewrite E. congruence.
    Qed.
  End Reg.
  Lemma fwd_ctr m ct o' : o_class o = CTR -> block c (o_counter o) -> bytes_ok m -> encrypt (VBytes m) o = (Ok ct, o') -> encrypt (VBytes ct) o = (Ok m, o') /\ bytes_ok ct.
  Proof.
    intros Hcl HR Hm H. pose proof (sem_ctr_enc o Hc m Hcl HR Hm) as EN. fold c in EN. fold n in EN. rewrite EN in H.
    destruct (data_cut c m Hm) as (bl & t & Hcut & HF & Htok & Ht & E & HB). fold n in HB, Ht. rewrite HB in H.
    destruct (ctr_split c Hc (o_counter o) bl t HR HF Ht) as (t' & HS & Hl & Ht' & HF').
    destruct (stream_ok o Hc _ t t' HF' Hl Ht (Ht' Htok)) as (Hok & HB' & HW'). fold c in HB', HW'. fold n in HB', HW'. rewrite <- HS in Hok, HB', HW'.
    assert (H1 : concat (ctr_run (oE c) (o_counter o) 0 (bl ++ opt_block t)) = ct) by congruence. rewrite H1 in H, Hok, HB', HW'. split; [|exact Hok].
    rewrite (sem_ctr_enc o Hc ct Hcl HR Hok). fold c. fold n. rewrite HB', (ctr_inv (nbs c) (block c) (oE c) (oD c)); auto using bxor_block, block_length, ctr_next_block.
    assert (HLn : forall ps k, List.length (ctr_run (oE c) (o_counter o) k ps) = List.length ps) by (induction ps; intros k; [reflexivity|]; rewrite ctr_run_cons; cbn [List.length]; now rewrite IHps).
    rewrite HLn. rewrite E. congruence.
  Qed.
End Onto.

(** What decryption gives back. *)
Definition text_of (cl : mode_class) (p : pmode) (n : nat) (m : bytes) : bytes := match cl with ECB | CBC => padded p n m | _ => m end.

Lemma inverse_both a key cl kw o p m ct o' : bytes_ok key -> kw_ok kw -> object_of a key cl kw o -> pad_arg kw = VInt (pad_code p) ->
  (cl = CBC \/ cl = CFB \/ cl = OFB -> exists iv, iv_arg a cl kw = VBytes iv /\ iv <> []) -> bytes_ok m -> bytes_ok ct ->
  (cl = ECB \/ cl = CBC -> (List.length ct mod bsize a = 0)%nat) ->
  (encrypt (VBytes m) o = (Ok ct, o') <-> decrypt (VBytes ct) o = (Ok (text_of cl p (bsize a) m), o')).
Proof.
  intros Hk Hkw HO Hp Hiv Hm Hct HL. destruct (object_facts a key cl kw o Hk Hkw HO) as (V & Ecl & Ha & HP & HRG). destruct V as [Hc HV]. rewrite Ecl in HV.
  pose proof (object_nbs o a Ha) as HN. destruct cl; cbn [text_of].
  - rewrite <- HN in *. apply onto_ecb; auto. congruence.
  - destruct (Hiv (or_introl eq_refl)) as (iv & Ei & Ni). destruct (HRG iv (or_introl eq_refl) Ei Ni) as [R HR]. rewrite <- HN in *. apply (onto_cbc o Hc R HR); auto. congruence.
  - destruct (Hiv (or_intror (or_introl eq_refl))) as (iv & Ei & Ni). destruct (HRG iv (or_intror (or_introl eq_refl)) Ei Ni) as [R HR]. split; [now apply (fwd_cfb o Hc R HR) | now apply (bwd_cfb o Hc R HR)].
  - destruct (Hiv (or_intror (or_intror eq_refl))) as (iv & Ei & Ni). destruct (HRG iv (or_intror (or_intror eq_refl)) Ei Ni) as [R HR]. rewrite sem_ofb_dec by exact Ecl. split; intros H; now apply (fwd_ofb o Hc R HR) in H.
  - rewrite sem_ctr_dec by exact Ecl. split; intros H; now apply (fwd_ctr o Hc) in H.
Qed.

Lemma every_ciphertext a key cl kw o ct : bytes_ok key -> kw_ok kw -> object_of a key cl kw o -> pad_arg kw = VInt (pad_code P1) ->
  (cl = CBC \/ cl = CFB \/ cl = OFB -> exists iv, iv_arg a cl kw = VBytes iv /\ iv <> []) -> bytes_ok ct ->
  (cl = ECB \/ cl = CBC -> ct <> [] /\ (List.length ct mod bsize a = 0)%nat) ->
  exists m o', List.length m = List.length ct /\ decrypt (VBytes ct) o = (Ok m, o') /\ encrypt (VBytes m) o = (Ok ct, o').
Proof.
  intros Hk Hkw HO Hp Hiv Hct HL. destruct (object_facts a key cl kw o Hk Hkw HO) as (V & Ecl & Ha & HP & HRG). destruct V as [Hc HV]. rewrite Ecl in HV.
  pose proof (object_nbs o a Ha) as HN.
  assert (HD : exists m o', List.length m = List.length ct /\ bytes_ok m /\ decrypt (VBytes ct) o = (Ok m, o')).
  { set (c := o_cipher o) in *. destruct (data_cut c ct Hct) as (bl & t & Hcut & HF & Htok & Ht & E & HB). pose proof (whole_cut _ _ _ _ Hcut) as HW. destruct cl.
    - destruct (HL (or_introl eq_refl)) as [_ HL']. rewrite <- HN in HL'. destruct (whole_message c ct Hct HL') as (cs & Ec & HFc & HWc). rewrite (sem_ecb_dec o Hc ct Ecl Hct). fold c. rewrite HWc.
      assert (HFD : Forall (block c) (ecb_dec (oD c) cs)) by (apply Forall_map; eapply Forall_impl; [|exact HFc]; intros; now apply oD_block).
      eexists _, _. split; [|split; [|reflexivity]]; [|exact (concat_ok _ _ HFD)]. rewrite Ec. clear - HFc HFD. unfold ecb_dec in *. induction cs as [|b cs IH]; [reflexivity|]. cbn [map concat] in *. inversion HFc; inversion HFD; subst. rewrite !app_length, IH by assumption. rewrite (block_length c b H1), (block_length c _ H5). reflexivity.
    - destruct (HL (or_intror eq_refl)) as [_ HL']. rewrite <- HN in HL'. destruct (whole_message c ct Hct HL') as (cs & Ec & HFc & HWc).
      destruct (Hiv (or_introl eq_refl)) as (iv & Ei & Ni). destruct (HRG iv (or_introl eq_refl) Ei Ni) as [R HR]. destruct (sem_cbc_dec o Hc R HR ct Ecl Hct) as [-> _]. fold c. rewrite HWc.
      pose proof HR as (HR1 & HR2 & HR3).
      assert (HFD : Forall (block c) (cbc_dec (oD c) R cs)) by (apply cbc_dec_blk; auto using bxor_block; intros; now apply oD_block).
      eexists _, _. split; [|split; [|reflexivity]]; [|exact (concat_ok _ _ HFD)]. rewrite Ec.
      assert (LB : forall l, Forall (block c) l -> List.length (concat l) = (List.length l * nbs c)%nat). { clear. intros l HF. induction HF as [|b l Hb _ IH]; [reflexivity|]. cbn [concat List.length]. rewrite app_length, IH, (block_length c b Hb). lia. }
      rewrite !LB by assumption. f_equal. clear. revert R. induction cs as [|b cs IH]; intros R; cbn [cbc_dec List.length]; [reflexivity|]. now rewrite IH.
    - destruct (Hiv (or_intror (or_introl eq_refl))) as (iv & Ei & Ni). destruct (HRG iv (or_intror (or_introl eq_refl)) Ei Ni) as [R HR]. destruct (sem_cfb_dec o Hc R HR ct Ecl Hct) as [-> _]. fold c. rewrite HB.
      pose proof HR as (HR1 & HR2 & HR3). destruct (cfb_dec_split c Hc R HR2 HR3 bl t HF Ht) as (t' & HS & Hl & Ht' & HF'). destruct (stream_ok o Hc _ t t' HF' Hl Ht (Ht' Htok)) as (Hok & _ & _). rewrite HS.
      eexists _, _. split; [|split; [exact Hok | reflexivity]]. rewrite E, !concat_app, !app_length, !concat_opt, Hl. f_equal.
      assert (LB : forall l, Forall (block c) l -> List.length (concat l) = (List.length l * nbs c)%nat). { clear. intros l HF. induction HF as [|b l Hb _ IH]; [reflexivity|]. cbn [concat List.length]. rewrite app_length, IH, (block_length c b Hb). lia. }
      rewrite !LB by assumption. f_equal. clear. revert R. induction bl as [|b cs IH]; intros R; cbn [cfb_dec List.length]; [reflexivity|]. now rewrite IH.
    - destruct (malleable a key OFB kw o ct (repeat 0 (List.length ct)) Hk Hkw HO) as (m & o' & Hl & E1 & _); [right; split; [reflexivity | exact (Hiv (or_intror (or_intror eq_refl)))] | exact Hct | apply Forall_forall; intros x Hx; apply repeat_spec in Hx; unfold byte_ok; lia | apply repeat_length |].
      exists m, o'. split; [exact Hl|]. split; [|exact E1]. destruct (Hiv (or_intror (or_intror eq_refl))) as (iv & Ei & Ni). destruct (HRG iv (or_intror (or_intror eq_refl)) Ei Ni) as [R HR]. rewrite sem_ofb_dec in E1 by exact Ecl. now apply (fwd_ofb o Hc R HR) in E1.
    - destruct (malleable a key CTR kw o ct (repeat 0 (List.length ct)) Hk Hkw HO) as (m & o' & Hl & E1 & _); [now left | exact Hct | apply Forall_forall; intros x Hx; apply repeat_spec in Hx; unfold byte_ok; lia | apply repeat_length |].
      exists m, o'. split; [exact Hl|]. split; [|exact E1]. rewrite sem_ctr_dec in E1 by exact Ecl. now apply (fwd_ctr o Hc) in E1. }
  destruct HD as (m & o' & Hl & Hm & E). exists m, o'. split; [exact Hl|]. split; [exact E|].
  apply (inverse_both a key cl kw o P1 m ct o' Hk Hkw HO Hp Hiv Hm Hct); [intros H; now apply HL|].
  assert (ET : text_of cl P1 (bsize a) m = m); [|now rewrite ET].
  assert (HN0 : (0 < bsize a)%nat) by (destruct a; cbn; lia).
  destruct cl; try reflexivity; cbn [text_of].
  - destruct (HL (or_introl eq_refl)) as [N HL']. apply padded_whole; [intros ->; apply N; now destruct ct | now rewrite Hl | exact HN0].
  - destruct (HL (or_intror eq_refl)) as [N HL']. apply padded_whole; [intros ->; apply N; now destruct ct | now rewrite Hl | exact HN0].
Qed.
