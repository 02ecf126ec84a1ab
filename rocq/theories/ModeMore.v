(** * Objects reached by any calls: chunks, padding, lengths, clearing *)
From Verif Require Import PyBase PyFacts PyState Utils UtilsFacts CipherObj Modes Mac SpecNew.
From Verif Require Import SpecModes CipherLemmas CipherObjFacts ModeFacts CtrFacts ModeSpecFacts ModeLemmas ModeSem ModeConf ModeProps ModeEmpty ModeSim ModeNew ModeHist.
Open Scope string_scope.
Open Scope list_scope.
Open Scope Z_scope.

(** [o] is a mode object made by [new] on which any calls whatever were made, successful or not. *)
Definition object_of (a : balg) (key : bytes) (cl : mode_class) (kw : kwargs) (o : mode_obj) : Prop :=
  exists o0 cs, new (alg a) (VBytes key) (VInt (mode_code cl)) kw = Ok (NewMode o0) /\
    Forall call_ok cs /\ o = snd (run cs o0).

Lemma object_fresh a key cl kw o : new (alg a) (VBytes key) (VInt (mode_code cl)) kw = Ok (NewMode o) -> object_of a key cl kw o.
Proof. intros H. exists o, []. split; [exact H|]. split; [constructor | reflexivity]. Qed.
Lemma object_step a key cl kw o k : call_ok k -> object_of a key cl kw o -> object_of a key cl kw (snd (step k o)).
Proof.
  intros Hk (o0 & cs & Hn & HF & ->). exists o0, (cs ++ [k]). split; [exact Hn|].
  split; [apply Forall_app; split; [exact HF | now repeat constructor]|].
  revert o0 Hn; induction cs as [|k' cs IH]; intros o0 Hn.
  - cbn. now destruct (step k o0).
  - cbn [app run]. destruct (step k' o0) as [r s]. inversion HF; subst.
    assert (G : forall s, snd (run (cs ++ [k]) s) = snd (step k (snd (run cs s)))).
    { clear. induction cs as [|k' cs IH]; intros s; [cbn; now destruct (step k s)|].
      cbn [app run]. destruct (step k' s) as [r s']. specialize (IH s'). destruct (run cs s'), (run (cs ++ [k]) s'). exact IH. }
    specialize (G s). destruct (run cs s), (run (cs ++ [k]) s). cbn [snd] in *. now symmetry.
Qed.

Lemma mode_code_inj a b : mode_code a = mode_code b -> a = b.
Proof. destruct a, b; try reflexivity; discriminate. Qed.
Lemma alg_name_inj a b : alg_name a = alg_name b -> a = b.
Proof. destruct a, b; try reflexivity; discriminate. Qed.

Lemma fresh_facts a key cl kw o : bytes_ok key -> kw_ok kw ->
  new (alg a) (VBytes key) (VInt (mode_code cl)) kw = Ok (NewMode o) ->
  valid o /\ o_class o = cl /\ made a key (o_cipher o) /\ bytes_len 32 key /\
  o_counter o = match cl with CTR => o_init_vect o ++ py_repeat 0 (half a) | _ => [] end /\
  o_init_vect o = match cl, iv_arg a cl kw with ECB, _ => [] | _, VBytes b => b | _, _ => [] end /\
  match cl with ECB | CBC => pad_arg kw = VInt (o_pad_mode o) | _ => o_pad_mode o = 0 end.
Proof.
  intros Hk Hkw Hn. pose proof (new_outcome (alg a) (VBytes key) (VInt (mode_code cl)) kw) as H.
  specialize (H ltac:(destruct cl; discriminate) Hk Hkw). destruct (first_failure _).
  - rewrite Hn in H. discriminate.
  - destruct H as (a' & k' & cl' & o' & E1 & E2 & E3 & E4 & H5 & H6 & H7 & H8 & H9 & H10 & H11).
    injection E1 as E1. apply alg_name_inj in E1. injection E2 as E2. injection E3 as E3. apply mode_code_inj in E3. subst a' k' cl'.
    rewrite Hn in E4. injection E4 as <-. repeat (split; auto).
Qed.

Lemma object_facts a key cl kw o : bytes_ok key -> kw_ok kw -> object_of a key cl kw o ->
  valid o /\ o_class o = cl /\ co_alg (o_cipher o) = a /\
  match cl with ECB | CBC => pad_arg kw = VInt (o_pad_mode o) | _ => o_pad_mode o = 0 end /\
  (forall b, cl = CBC \/ cl = CFB \/ cl = OFB -> iv_arg a cl kw = VBytes b -> b <> [] -> exists R, reg o R).
Proof.
  intros Hk Hkw (o0 & cs & Hn & HF & ->).
  destruct (fresh_facts a key cl kw o0 Hk Hkw Hn) as (V & Hcl & Hmd & _ & _ & Hiv & Hpad).
  pose proof (run_frame cs o0 V HF) as [F1 F2 F3 F4]. pose proof (run_valid cs o0 V HF) as V1. split; [exact V1|]. split; [congruence|].
  split; [rewrite F3; apply Hmd|]. split; [rewrite F2; exact Hpad|]. intros b Hc Eb Hne.
  assert (HN : o_init_vect (snd (run cs o0)) <> []) by (apply F4; rewrite Hiv; destruct Hc as [-> |[-> | ->]]; rewrite Eb; exact Hne).
  assert (HV : iv_valid (snd (run cs o0))).
  { destruct V1 as [_ HV]. rewrite F1, Hcl in HV. destruct Hc as [-> |[-> | ->]]; tauto. }
  destruct (iv_cases _ HV) as [He|HR]; [contradiction | exact HR].
Qed.
Lemma object_nbs (o : mode_obj) a : co_alg (o_cipher o) = a -> nbs (o_cipher o) = bsize a.
Proof. intros <-. apply nbs_alg. Qed.
Lemma object_bs (o : mode_obj) a : co_alg (o_cipher o) = a -> block_size o = Z.of_nat (bsize a).
Proof. intros <-. apply bs_alg. Qed.

Lemma gives_iv_arg kw iv a cl : gives_iv kw iv -> iv_arg a cl kw = VBytes iv.
Proof. intros H. unfold iv_arg. unfold gives_iv in H. now rewrite H. Qed.
Lemma gives_pad_arg kw p : gives_pad kw p -> pad_arg kw = VInt (pad_code p).
Proof. intros H. unfold pad_arg. unfold gives_pad in H. now rewrite H. Qed.

(** ** Chunks *)

Lemma chunks_encrypt a key cl kw o chunks : bytes_ok key -> kw_ok kw -> object_of a key cl kw o ->
  chunks <> [] -> Forall bytes_ok chunks -> whole_but_last (Z.of_nat (bsize a)) chunks ->
  (cl = ECB \/ cl = CBC -> pad_arg kw = VInt PAD_MODE_1 /\ Forall (fun m => m <> []) chunks) ->
  calls_joined encrypt chunks o = encrypt (VBytes (concat chunks)) o.
Proof.
  intros Hk Hkw HO Hne Hok Hw Hp. destruct (object_facts a key cl kw o Hk Hkw HO) as (V & Hcl & Ha & Hpad & _).
  apply chunked_encrypt; auto. 
  - now rewrite (object_bs o a Ha).
  - unfold pads. rewrite Hcl. intros HP. destruct cl; try discriminate.
    + destruct Hp as [Hp HF]; [now left|]. rewrite Hp in Hpad. injection Hpad as <-. now split.
    + destruct Hp as [Hp HF]; [now right|]. rewrite Hp in Hpad. injection Hpad as <-. now split.
Qed.
Lemma chunks_decrypt a key cl kw o chunks : bytes_ok key -> kw_ok kw -> object_of a key cl kw o ->
  chunks <> [] -> Forall bytes_ok chunks -> whole_but_last (Z.of_nat (bsize a)) chunks ->
  calls_joined decrypt chunks o = decrypt (VBytes (concat chunks)) o.
Proof.
  intros Hk Hkw HO Hne Hok Hw. destruct (object_facts a key cl kw o Hk Hkw HO) as (V & Hcl & Ha & Hpad & _).
  apply chunked_decrypt; auto. now rewrite (object_bs o a Ha).
Qed.

(** ** Keystream reuse after a partial block *)

Lemma bxor_app_l (t b x : bytes) : (List.length t <= List.length b)%nat -> bxor t (b ++ x) = bxor t b.
Proof.
  revert b; induction t as [|z t IH]; intros [|y b] H; cbn [List.length] in H; try reflexivity; [lia|].
  change (bxor (z :: t) ((y :: b) ++ x)) with (Z.lxor z y :: bxor t (b ++ x)).
  change (bxor (z :: t) (y :: b)) with (Z.lxor z y :: bxor t b). f_equal. apply IH. lia.
Qed.
Lemma bxor_reuse (t b g : bytes) : (List.length t <= List.length g)%nat -> (List.length b <= List.length g)%nat ->
  bxor (bxor t g) (bxor b g) = bxor t b.
Proof.
  revert b g; induction t as [|z t IH]; intros b [|y g] Ht Hb; cbn [List.length] in *; try (destruct b; reflexivity); [lia|].
  destruct b as [|w b]; [reflexivity|]. cbn [List.length] in Hb.
  change (bxor (z :: t) (y :: g)) with (Z.lxor z y :: bxor t g). change (bxor (w :: b) (y :: g)) with (Z.lxor w y :: bxor b g).
  change (Z.lxor (Z.lxor z y) (Z.lxor w y) :: bxor (bxor t g) (bxor b g) = Z.lxor z w :: bxor t b). f_equal; [|apply IH; lia].
  rewrite (Z.lxor_comm w y), Z.lxor_assoc, <- (Z.lxor_assoc y y w), Z.lxor_nilpotent. reflexivity.
Qed.

Lemma cut_skip c (m : bytes) bl t : cut (bs c) m bl t -> skipn (List.length m / nbs c * nbs c) m = t /\
  (forall out t' : bytes, List.length out = List.length (concat bl) -> skipn (List.length m / nbs c * nbs c) (out ++ t') = t').
Proof.
  intros Hcut. pose proof (nbs_pos c) as Hp. pose proof (cut_len _ _ _ _ Hcut) as HL.
  assert (HC : List.length (concat bl) = (List.length m / nbs c * nbs c)%nat).
  { destruct Hcut as (E & HF & Ht). pose proof (concat_len _ _ HF) as HCL. rewrite <- nbs_bs in *. unfold len in *.
    assert (HD : (List.length m / nbs c = List.length bl)%nat).
    { replace (List.length m) with (List.length bl * nbs c + List.length t)%nat by nia.
      rewrite Nat.div_add_l by lia. rewrite Nat.div_small by lia. lia. }
    rewrite HD. nia. }
  rewrite <- HC. split.
  - destruct Hcut as (E & _). rewrite E. now rewrite skipn_app, skipn_all, Nat.sub_diag.
  - intros out t' <-. now rewrite skipn_app, skipn_all, Nat.sub_diag.
Qed.

(** The first block of the second message, or the whole of it. *)
Lemma first_piece c m : bytes_ok m -> m <> [] -> exists b x rest, blocks (nbs c) m = b :: rest /\ m = b ++ x /\
  (List.length b <= nbs c)%nat /\ (x = [] /\ rest = [] \/ List.length b = nbs c).
Proof.
  intros Hm Hne. destruct (data_cut c m Hm) as (bl & t & Hcut & HF & Htok & Ht & E & HB).
  destruct bl as [|b bl].
  - destruct t as [|y t]; [now cbn in E|]. exists (y :: t), [], []. rewrite HB. cbn [app opt_block]. rewrite app_nil_r.
    split; [reflexivity|]. split; [rewrite E at 1; cbn; now rewrite app_nil_r|]. split; [lia | left; auto].
  - assert (Hb := Forall_inv HF). exists b, (concat (bl ++ opt_block t)), (bl ++ opt_block t). rewrite HB.
    split; [reflexivity|]. split; [exact E|]. rewrite (block_length c b Hb). split; [lia | now right].
Qed.

Lemma concat_shape c (out bl : list bytes) : Forall (block c) out -> Forall (block c) bl -> List.length out = List.length bl ->
  List.length (concat out) = List.length (concat bl).
Proof.
  intros H1 H2 HL. pose proof (concat_len _ _ (blocks_lens _ _ H1)). pose proof (concat_len _ _ (blocks_lens _ _ H2)).
  unfold len in *. nia.
Qed.

Lemma gamma_reuse a key cl kw iv o m1 m2 : bytes_ok key -> kw_ok kw -> object_of a key cl kw o ->
  cl = CFB \/ cl = OFB -> iv_arg a cl kw = VBytes iv -> iv <> [] -> bytes_ok m1 -> bytes_ok m2 ->
  (List.length m1 mod bsize a <> 0)%nat ->
  exists c1 c2 o1 o2, encrypt (VBytes m1) o = (Ok c1, o1) /\ encrypt (VBytes m2) o1 = (Ok c2, o2) /\
    let k := (List.length m1 / bsize a * bsize a)%nat in bxor (skipn k c1) c2 = bxor (skipn k m1) m2.
Proof.
  intros Hk Hkw HO Hcl Hiv Hne Hm1 Hm2 Hpart.
  destruct (object_facts a key cl kw o Hk Hkw HO) as (V & Ecl & Ha & _ & HR0).
  destruct (HR0 iv ltac:(tauto) Hiv Hne) as [R HR]. destruct V as [Hc _]. set (c := o_cipher o) in *.
  rewrite <- (object_nbs o a Ha) in *. fold c in Hpart |- *.
  destruct (data_cut c m1 Hm1) as (bl & t & Hcut & HF & Htok & Ht & E & HB).
  destruct (cut_skip c m1 bl t Hcut) as [HS1 HS2].
  assert (Hone : forall (G c1 out : bytes) c2, block c G -> List.length out = List.length (concat bl) -> c1 = out ++ bxor t G ->
     (m2 = [] /\ c2 = [] \/ exists b x y, m2 = b ++ x /\ c2 = bxor b G ++ y /\ (List.length b <= nbs c)%nat /\ (x = [] /\ y = [] \/ List.length b = nbs c)) ->
     bxor (skipn (List.length m1 / nbs c * nbs c) c1) c2 = bxor (skipn (List.length m1 / nbs c * nbs c) m1) m2).
  { intros G c1 out c2 HG Hlen -> Hcase. rewrite HS1, HS2 by exact Hlen. pose proof (block_length c G HG) as HGL.
    destruct Hcase as [[-> ->]|(b & x & y & -> & -> & Hb & Hxy)].
    - rewrite !bxor_eq. now destruct (add_xor t G), t.
    - destruct Hxy as [[-> ->]|Hxy]; [rewrite !app_nil_r; apply bxor_reuse; lia|].
      rewrite !bxor_app_l by (rewrite ?bxor_length; lia). apply bxor_reuse; lia. }
  assert (HRv := HR). destruct HRv as (_ & HRne & HRF). fold c in HRF.
  destruct Hcl as [-> | ->].
  - destruct (sem_cfb_enc o Hc R HR m1 Ecl Hm1) as [E1 Hreg]. fold c in E1, Hreg. rewrite (whole_cut _ _ _ _ Hcut), HB in *.
    match type of E1 with _ = (_, ?s) => set (o1 := s) in * end.
    destruct (sem_cfb_enc o1 Hc _ Hreg m2 Ecl Hm2) as [E2 _].
    eexists _, _, o1, _. split; [exact E1|]. split; [exact E2|]. cbv zeta.
    set (R' := shift R (cfb_enc (oE c) R bl)) in *. change (o_cipher o1) with c in *.
    assert (HF' : Forall (block c) (cfb_enc (oE c) R bl)) by (apply cfb_enc_blk; auto using bxor_block; intros; now apply oE_block).
    assert (HG : block c (oE c (hd [] R'))).
    { apply oE_block; [exact Hc|]. exact (reg_hd _ _ Hreg). }
    apply (Hone (oE c (hd [] R')) _ (concat (cfb_enc (oE c) R bl)) _ HG).
    + apply (concat_shape c); auto. apply cfb_enc_length.
    + rewrite cfb_enc_app by exact HRne. fold R'. rewrite concat_app. f_equal.
      destruct t as [|z t]; [reflexivity|]. cbn [opt_block cfb_enc concat]. apply app_nil_r.
    + destruct (list_eq_dec Z.eq_dec m2 []) as [-> |Hm2e]; [left; now split|]. right.
      destruct (first_piece c m2 Hm2 Hm2e) as (b & x & rest & HB2 & Em2 & Hb & Hor). rewrite HB2. cbn [cfb_enc concat].
      exists b, x. eexists. split; [exact Em2|]. split; [reflexivity|]. split; [exact Hb|].
      destruct Hor as [[-> ->]|Hor]; [left; split; reflexivity | now right].
  - destruct (sem_ofb_enc o Hc R HR m1 Ecl Hm1) as [E1 Hreg]. fold c in E1, Hreg. rewrite (whole_cut _ _ _ _ Hcut), HB in *.
    match type of E1 with _ = (_, ?s) => set (o1 := s) in * end.
    destruct (sem_ofb_enc o1 Hc _ Hreg m2 Ecl Hm2) as [E2 _].
    eexists _, _, o1, _. split; [exact E1|]. split; [exact E2|]. cbv zeta.
    set (R' := shift R (ofb_gamma (oE c) R (List.length bl))) in *. change (o_cipher o1) with c in *.
    assert (HF' : Forall (block c) (ofb (oE c) R bl)) by (apply ofb_blk; auto using bxor_block; intros; now apply oE_block).
    assert (HG : block c (oE c (hd [] R'))).
    { apply oE_block; [exact Hc|]. exact (reg_hd _ _ Hreg). }
    apply (Hone (oE c (hd [] R')) _ (concat (ofb (oE c) R bl)) _ HG).
    + apply (concat_shape c); auto. unfold ofb. rewrite map_length, combine_length, ofb_gamma_length. lia.
    + rewrite ofb_app by exact HRne. fold R'. rewrite concat_app. f_equal.
      destruct t as [|z t]; [reflexivity|]. cbn [opt_block]. rewrite ofb_cons. cbn. apply app_nil_r.
    + destruct (list_eq_dec Z.eq_dec m2 []) as [-> |Hm2e]; [left; now split|]. right.
      destruct (first_piece c m2 Hm2 Hm2e) as (b & x & rest & HB2 & Em2 & Hb & Hor). rewrite HB2, ofb_cons. cbn [concat].
      exists b, x. eexists. split; [exact Em2|]. split; [reflexivity|]. split; [exact Hb|].
      destruct Hor as [[-> ->]|Hor]; [left; split; reflexivity | now right].
Qed.
