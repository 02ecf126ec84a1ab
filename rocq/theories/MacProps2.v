(** * [mac_final] called again, and cleared MAC objects *)
From Verif Require Import PyBase PyFacts PyState Utils UtilsFacts CipherObj Modes Mac SpecNew.
From Verif Require Import SpecModes CipherLemmas CipherObjFacts ModeFacts ModeSpecFacts ModeLemmas ModeProps ModeEmpty ModeSim ModeNew MacFacts MacFacts2 MacLemmas MacProps.
Open Scope string_scope.
Open Scope list_scope.
Open Scope Z_scope.

(** ** Doubling has no fixed point but zero *)
Fixpoint prefix (q : Z) (k : nat) : bool :=
  match k with
  | O => Z.testbit q 0
  | S k' => xorb (Z.testbit q (Z.of_nat k)) (prefix q k')
  end.
Lemma prefix_bits x q k : Z.lxor (2 * x) q = x -> Z.testbit x (Z.of_nat k) = prefix q k.
Proof.
  intros H. induction k as [|k IH].
  - rewrite <- H, Z.lxor_spec. change (Z.of_nat 0) with 0. rewrite Z.testbit_even_0. apply xorb_false_l.
  - rewrite <- H, Z.lxor_spec. rewrite Nat2Z.inj_succ, Z.testbit_even_succ by lia. rewrite IH. cbn [prefix]. rewrite Nat2Z.inj_succ. apply xorb_comm.
Qed.

Lemma double_fixed c v : 0 <= v < 256 ^ bs c -> double (nbs c) v = v -> v = 0.
Proof.
  intros Hv H. unfold double in H. rewrite nbs_bs in H. destruct (2 * v <? 256 ^ bs c) eqn:E; [lia|]. exfalso.
  pose proof (prefix_bits _ _ (8 * nbs c) H) as HB.
  assert (HP : prefix (poly (nbs c)) (8 * nbs c) = true) by (destruct (nbs_cases c) as [-> | ->]; vm_compute; reflexivity).
  rewrite HP in HB. rewrite (bits_ge v (8 * bs c)) in HB; [discriminate HB| |].
  - rewrite <- nbs_bs in *. now rewrite pow256 in Hv.
  - rewrite <- nbs_bs. lia.
Qed.
Lemma double_zero c v : 0 <= v -> double (nbs c) v = 0 -> v = 0.
Proof.
  intros Hv H. unfold double in H. destruct (2 * v <? _); [lia|]. apply Z.lxor_eq in H. exfalso.
  assert (HO : Z.testbit (poly (nbs c)) 0 = true) by (destruct (nbs_cases c) as [-> | ->]; reflexivity).
  rewrite <- H, Z.testbit_even_0 in HO. discriminate.
Qed.

Lemma keys_equal c E : block c (E (zero_block c)) ->
  mac_key1 E (nbs c) = mac_key2 E (nbs c) <-> E (repeat 0 (nbs c)) = repeat 0 (nbs c).
Proof.
  intros HB. rewrite <- zero_block_eq. pose proof (be_value_range c _ HB) as HR. split.
  - intros H. unfold mac_key1, mac_key2 in H. rewrite <- zero_block_eq in H. apply (f_equal be_value) in H.
    pose proof (double_range c _ HR) as HR1. pose proof (double_range c _ HR1) as HR2.
    rewrite !be_value_of in H by assumption. symmetry in H. apply double_fixed in H; [|exact HR1]. apply double_zero in H; [|lia].
    rewrite be_value_eq in H. apply bytearray_to_int_inj; try apply HB; try apply zero_block_ok.
    + destruct HB as [-> _], (zero_block_ok c) as [-> _]. reflexivity.
    + rewrite H. symmetry. rewrite <- be_value_eq. destruct (nbs_cases c) as [E1|E1]; rewrite zero_block_eq, E1; reflexivity.
  - intros H. unfold mac_key1, mac_key2. rewrite <- zero_block_eq, H. destruct (nbs_cases c) as [E1|E1]; rewrite zero_block_eq, E1; vm_compute; reflexivity.
Qed.

(** ** [mac_final] twice *)
Lemma block_xor_inj c a b b' : block c a -> block c b -> block c b' -> bxor a b = bxor a b' -> b = b'.
Proof.
  intros Ha Hb Hb' H. rewrite !bxor_eq in H. apply (f_equal (add_xor a)) in H.
  destruct Ha as [Ha _], Hb as [Hb _], Hb' as [Hb' _]. rewrite !add_xor_cancel in H by congruence. exact H.
Qed.

Lemma final_twice a key msg m : tracks a key msg m ->
  exists v1 v2 m1 m2, mac_final m = (Ok v1, m1) /\ mac_final m1 = (Ok v2, m2) /\
    v1 = mac (spec_E a key) (bsize a) msg /\
    (v1 = v2 <-> (msg <> [] /\ len msg mod Z.of_nat (bsize a) = 0) \/ spec_E a key (repeat 0 (bsize a)) = repeat 0 (bsize a)).
Proof.
  intros HT. destruct (tracks_final a key msg m HT) as [E (bl & t & Hmsg & H & Hf & Es)].
  pose proof (tracks_valid a key msg m HT) as HV. destruct HT as [Hm K1 K2 _].
  pose proof (made_nbs _ _ _ Hm) as Hn. pose proof (tracks_len a key msg m bl t Hm Hmsg H) as HL.
  set (c := m_cipher m) in *. pose proof (bs_pos c) as Hpos.
  assert (Hc : co_ok c) by apply H. pose proof (core_bl _ _ _ H) as HF. fold c in HF.
  pose proof (mv_k1 a m HV) as B1. pose proof (mv_k2 a m HV) as B2. pose proof (mv_prev a m HV) as BP. fold c in B1, B2, BP.
  destruct (final_valid a m HV) as (v1 & E1 & _ & HV1). rewrite E in E1. injection E1 as <-.
  set (m1 := snd (mac_final m)) in *. destruct (final_valid a m1 HV1) as (v2 & E2 & _ & _).
  exists (mac (spec_E a key) (bsize a) msg), v2, m1, (snd (mac_final m1)). split; [exact E|]. split; [exact E2|]. split; [reflexivity|].
  assert (HKE : m_key_1 m = m_key_2 m <-> spec_E a key (repeat 0 (bsize a)) = repeat 0 (bsize a)).
  { rewrite K1, K2, <- Hn. apply keys_equal. destruct Hm as (_ & _ & Hag). fold c. rewrite <- (proj1 (Hag _ (zero_block_ok c))). apply oE_block; [exact Hc | apply zero_block_ok]. }
  assert (HfbB : block c (final_buff c bl t)).
  { unfold final_buff. destruct t as [|z t]; [destruct bl as [|b0 bl0] eqn:Ebl|].
    - apply pad3_is_block; apply H.
    - apply last_forall; [exact HF | discriminate].
    - apply pad3_is_block; apply H. }
  (* the second call takes the first branch *)
  assert (Hsec : v2 = oE c (bxor (bxor (final_buff c bl t) (m_prev_mac m)) (m_key_1 m))).
  { assert (Hms : mac_final m1 = (Ok (oE c (bxor (bxor (final_buff c bl t) (m_prev_mac m)) (m_key_1 m))), m1)).
    { rewrite Es. unfold mac_final, bindM at 1, getM. cbv zeta. unfold mac_block_size. cbn [with_state m_cipher m_fin_buff m_key_1 m_key_2 m_prev_mac m_iter_buf m_cur_mac]. fold c.
      assert (Hp0 : _get_pad_size (bs c) (final_buff c bl t) = 0).
      { unfold _get_pad_size. destruct HfbB as [-> _]. rewrite Z.ltb_irrefl, Z.mod_same by lia. reflexivity. }
      rewrite Hp0. change (0 =? 0) with true. cbv iota. unfold bindM, putM, liftM. rewrite !bxor_eq.
      destruct (co_enc c (add_xor (add_xor (final_buff c bl t) (m_prev_mac m)) (m_key_1 m)) Hc) as [-> _]; [|reflexivity].
      apply xor_block; [|exact B1]. now apply xor_block. }
    rewrite E2 in Hms. congruence. }
  assert (Hfst : mac (spec_E a key) (bsize a) msg = final_value c (m_key_1 m) (m_key_2 m) bl t).
  { pose proof (final_ok m bl t H Hf B1 B2) as HFO. rewrite E in HFO. fold c in HFO. congruence. }
  assert (Hfst2 : final_value c (m_key_1 m) (m_key_2 m) bl t =
    oE c (bxor (bxor (final_buff c bl t) (m_prev_mac m)) (match t, bl with [], _ :: _ => m_key_1 m | _, _ => m_key_2 m end))).
  { rewrite (core_prev _ _ _ H). fold c. unfold final_value, final_buff. destruct t as [|z t]; [destruct bl|]; reflexivity. }
  rewrite Hfst, Hfst2, Hsec.
  assert (Hwhole : (msg <> [] /\ len msg mod Z.of_nat (bsize a) = 0) <-> t = [] /\ bl <> []).
  { rewrite HL. split.
    - intros [Hne Ht]. apply len_0_nil in Ht. split; [exact Ht|]. intros ->. subst t. cbn in Hmsg. contradiction.
    - intros [-> Hne]. split; [|reflexivity]. rewrite Hmsg, app_nil_r. destruct bl as [|b0 bl0]; [contradiction|].
      intros E0. apply Forall_inv in HF. destruct HF as [HFl _]. cbn in E0. apply app_eq_nil in E0 as [-> _]. rewrite len_nil in HFl. lia. }
  rewrite Hwhole, <- HKE. assert (HXB : block c (bxor (final_buff c bl t) (m_prev_mac m))) by now apply bxor_block.
  destruct t as [|z t]; [destruct bl as [|b0 bl0]|].
  - split.
    + intros HE. right. symmetry. apply oE_inj in HE; try apply bxor_block; auto. now apply (block_xor_inj c) in HE.
    + intros [[_ Hx]|HE]; [contradiction|]. now rewrite HE.
  - split; [|reflexivity]. intros _. left. split; [reflexivity | discriminate].
  - split.
    + intros HE. right. symmetry. apply oE_inj in HE; try apply bxor_block; auto. now apply (block_xor_inj c) in HE.
    + intros [[Hx _]|HE]; [discriminate Hx|]. now rewrite HE.
Qed.

(** Updates are not affected by an earlier [mac_final]. *)
Lemma final_set_fin m : exists x, snd (mac_final m) = set_fin m x.
Proof.
  unfold mac_final, bindM, getM, liftM, putM. cbv zeta. destruct (if _ =? 0 then _ else _) as [k fb]. exists fb. reflexivity.
Qed.
Lemma final_then_update m d m' : mac_update (VBytes d) m = (Ok tt, m') -> mac_update (VBytes d) (snd (mac_final m)) = (Ok tt, m').
Proof. intros H. destruct (final_set_fin m) as [x ->]. rewrite update_set_fin, H. reflexivity. Qed.

(** ** Clearing *)
Lemma update_not_bytes a key m d : bytes_len 32 key -> mac_used a key m -> not_bytes d ->
  mac_update d m = (Err (GOSTCipherError "GOSTCipherError: invalid text data"), snd (mac_clear m)).
Proof.
  intros Hk Hu Hd. pose proof (used_valid a key m Hk Hu) as HV. destruct (mac_clear_eq m (mv_co a m HV)) as (c & E & _).
  destruct d; cbn [not_bytes] in Hd; try contradiction; cbn [mac_update]; unfold bindM; rewrite E; reflexivity.
Qed.

(** A digest after [clear] of an object without data discloses a subkey. *)
Definition first_pad (n : nat) : bytes := 0x80 :: repeat 0 (n - 1).
Lemma cleared_digest a key m : bytes_len 32 key -> mac_object a key [] m ->
  exists d x, mac_digest (Z.of_nat (bsize a)) (snd (mac_clear m)) = (Ok d, snd (mac_clear m)) /\
    co_decrypt (cleared_obj a) d = Ok x /\ bxor x (first_pad (bsize a)) = mac_key2 (spec_E a key) (bsize a).
Proof.
  intros Hk Hm. pose proof (kw_data_of a key [] m Hm Hk ltac:(constructor)) as HT.
  pose proof (tracks_valid a key [] m HT) as HV. destruct HT as [Hmd K1 K2 (bl & t & Hmsg & H & Hf)].
  symmetry in Hmsg. apply app_eq_nil in Hmsg as [Hbl ->].
  pose proof (core_bl _ _ _ H) as HF. assert (bl = []) as ->.
  { destruct bl as [|b0 bl0]; [reflexivity|]. apply Forall_inv in HF. destruct HF as [HFl _]. cbn in Hbl. apply app_eq_nil in Hbl as [-> _].
    pose proof (bs_pos (m_cipher m)). rewrite len_nil in HFl. lia. }
  destruct (mac_clear_eq m (mv_co a m HV)) as (c & E & C1 & C2 & C3). rewrite E. cbn [snd]. pose proof (mv_alg a m HV) as Ha. rewrite Ha in C2, C3.
  set (m' := {| m_cipher := c |}). assert (Hbs : bs c = bs (m_cipher m)) by (rewrite !bs_alg; now rewrite C2, Ha).
  assert (HZ : zero_block c = zero_block (m_cipher m)) by (unfold zero_block; now rewrite Hbs).
  assert (H' : core m' [] []).
  { split; cbn [m_cipher m_iter_buf m_cur_mac m_prev_mac m']; auto; try constructor.
    - change (len (@nil Z)) with 0. apply bs_pos.
    - apply H.
    - rewrite (core_cur _ _ _ H). cbn. now rewrite HZ.
    - rewrite (core_prev _ _ _ H). cbn. now rewrite HZ. }
  assert (HBt : forall b, block (m_cipher m) b -> block c b) by (intros b Hb; now apply (block_alg (m_cipher m) c); [rewrite Ha, C2|]).
  pose proof (final_ok m' [] [] H' Hf (HBt _ (mv_k1 a m HV)) (HBt _ (mv_k2 a m HV))) as HFin. cbn [m_cipher m_key_1 m_key_2 m'] in HFin. fold m' in HFin.
  set (v := final_value c (m_key_1 m) (m_key_2 m) [] []) in *.
  assert (Hp : block c (pad3 c [])) by (apply pad3_is_block; [constructor | change (len (@nil Z)) with 0; apply bs_pos]).
  assert (Hin : block c (bxor (bxor (pad3 c []) (zero_block c)) (m_key_2 m))).
  { apply bxor_block; [apply bxor_block; [exact Hp | apply zero_block_ok] | apply HBt, HV]. }
  assert (Hv : v = oE c (bxor (bxor (pad3 c []) (zero_block c)) (m_key_2 m))) by reflexivity.
  assert (Bv : block c v) by (rewrite Hv; now apply oE_block).
  assert (Hcl : block (cleared_obj a) v) by (apply (block_alg c); [now rewrite C2; destruct a | exact Bv]).
  exists v, (oD (cleared_obj a) v). split; [|split].
  - rewrite (digest_eq a) by exact C2. replace (Z.of_nat (bsize a) >? Z.of_nat (bsize a)) with false by lia. rewrite HFin. cbn [fst bind].
    rewrite <- (proj1 (bsize_eq c a C2)). now rewrite py_slice_block.
  - apply co_dec; [apply cleared_ok | exact Hcl].
  - assert (HD : oD (cleared_obj a) v = bxor (bxor (pad3 c []) (zero_block c)) (m_key_2 m)).
    { rewrite <- (proj2 (C3 v ltac:(apply (block_alg c); [now rewrite Ha, C2 | exact Bv]))). rewrite Hv. now apply oD_oE. }
    rewrite HD. pose proof (proj2 (bsize_eq c a C2)) as Hn.
    assert (Hz : bxor (pad3 c []) (zero_block c) = pad3 c []).
    { rewrite bxor_eq. apply add_xor_zeros_r. destruct Hp as [-> _]. lia. }
    rewrite Hz. replace (first_pad (bsize a)) with (pad3 c []) by (unfold pad3, first_pad; rewrite Hn; cbn [app List.length]; do 2 f_equal; lia).
    rewrite !bxor_eq, (add_xor_comm (add_xor _ _)), add_xor_cancel; [rewrite <- K2; reflexivity|].
    destruct Hp as [-> _]. destruct (HBt _ (mv_k2 a m HV)) as [-> _]. reflexivity.
Qed.
