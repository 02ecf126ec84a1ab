(** * MAC objects: subkeys, the final step, conformance *)
From Verif Require Import PyBase PyFacts PyState Utils UtilsFacts CipherObj Modes Mac.
From Verif Require Import SpecModes CipherLemmas CipherObjFacts ModeFacts ModeSpecFacts ModeLemmas MacFacts.

(** ** Doubling *)

Lemma bits_lt x k : 0 <= x -> 0 <= k -> (forall i, k <= i -> Z.testbit x i = false) -> x < 2 ^ k.
Proof.
  intros Hx Hk H. destruct (Z.lt_ge_cases x (2 ^ k)) as [|Hge]; [assumption|exfalso].
  assert (0 < x) by (pose proof (Z.pow_pos_nonneg 2 k); lia).
  assert (k <= Z.log2 x) by (apply Z.log2_le_pow2; lia).
  assert (Hb := Z.bit_log2 x ltac:(lia)). rewrite H in Hb by assumption. discriminate.
Qed.

Lemma bits_ge x k i : 0 <= x < 2 ^ k -> k <= i -> Z.testbit x i = false.
Proof.
  intros Hx Hi. destruct (Z.eq_dec x 0) as [->|]; [apply Z.bits_0|].
  apply Z.bits_above_log2; [lia|]. destruct (Z.lt_ge_cases k 0); [rewrite Z.pow_neg_r in Hx by lia; lia|].
  assert (Z.log2 x < k) by (apply Z.log2_lt_pow2; lia). lia.
Qed.

Lemma xor_of_ints x y n : add_xor (int_to_bytearray x n) (int_to_bytearray y n) = int_to_bytearray (Z.lxor x y) n.
Proof.
  rewrite !int_to_bytearray_seq. generalize (seq 0 (Z.to_nat n)) (in_seq (Z.to_nat n) 0). intros l Hin.
  assert (Hl : forall i, In i l -> (i < Z.to_nat n)%nat) by (intros i Hi; apply Hin in Hi; lia). clear Hin.
  induction l as [|i l IH]; [reflexivity|]. cbn [map add_xor]. f_equal; [|apply IH; intros j Hj; apply Hl; now right].
  specialize (Hl i (or_introl eq_refl)). rewrite <- !byte_at_eq by lia. unfold byte_at.
  set (p := (n - 1 - Z.of_nat i) * 8). rewrite <- Z.shiftr_lxor. f_equal.
  apply Z.bits_inj'. intros j Hj. rewrite !Z.lxor_spec, !Z.land_spec, !Z.lxor_spec. now destruct (Z.testbit x j), (Z.testbit y j), (Z.testbit (Z.shiftl 255 p) j).
Qed.

Lemma pow256 n : 256 ^ Z.of_nat n = 2 ^ (8 * Z.of_nat n).
Proof. change 256 with (2 ^ 8). rewrite <- Z.pow_mul_r by lia. reflexivity. Qed.

Lemma nbs_cases c : nbs c = 16%nat \/ nbs c = 8%nat.
Proof. unfold nbs. destruct (bs_cases c) as [-> | ->]; auto. Qed.

Lemma poly_range c : 256 ^ bs c <= poly (nbs c) < 2 * 256 ^ bs c.
Proof. unfold nbs. destruct (bs_cases c) as [-> | ->]; split; vm_compute; congruence. Qed.

Lemma double_range c v : 0 <= v < 256 ^ bs c -> 0 <= double (nbs c) v < 256 ^ bs c.
Proof.
  intros Hv. unfold double. rewrite nbs_bs. destruct (2 * v <? 256 ^ bs c) eqn:E; [lia|].
  pose proof (poly_range c) as Hp. rewrite <- nbs_bs in *. rewrite pow256 in *. set (k := 8 * Z.of_nat (nbs c)) in *.
  assert (Hk : 0 <= k) by (subst k; lia). clearbody k.
  assert (Hd : 0 < 2 ^ k) by (apply Z.pow_pos_nonneg; lia).
  set (w := 2 * v) in *. set (q := poly (nbs c)) in *.
  assert (H0 : 0 <= Z.lxor w q) by (apply Z.lxor_nonneg; lia). split; [exact H0|].
  apply bits_lt; [exact H0 | exact Hk|]. intros i Hi. rewrite Z.lxor_spec.
  assert (Hp2 : 2 ^ (k + 1) = 2 * 2 ^ k) by (rewrite Z.pow_add_r by lia; lia).
  destruct (Z.eq_dec i k) as [->|].
  - assert (T : forall x, 2 ^ k <= x < 2 ^ (k + 1) -> Z.testbit x k = true).
    { intros x Hx. apply Z.testbit_true; [lia|]. replace (x / 2 ^ k) with 1; [reflexivity|]. apply Z.div_unique with (x - 2 ^ k); lia. }
    rewrite !T by lia. reflexivity.
  - rewrite !(bits_ge _ (k + 1)) by lia. reflexivity.
Qed.

Lemma b_constant c : (if bs c =? 16 then _B_128 else if bs c =? 8 then _B_64 else []) = int_to_bytearray (poly (nbs c)) (bs c).
Proof. unfold nbs. destruct (bs_cases c) as [-> | ->]; vm_compute; reflexivity. Qed.

Lemma double_ok c v : block c v ->
  mac_double (bs c) (if bs c =? 16 then _B_128 else if bs c =? 8 then _B_64 else []) v = Ok (be_bytes (nbs c) (double (nbs c) (be_value v))).
Proof.
  intros [Hl Hok]. rewrite b_constant, be_bytes_eq, be_value_eq, nbs_bs. unfold mac_double, msb.
  pose proof (bs_pos c). rewrite (py_get_nth v 0 0) by lia. cbn [bind]. rewrite Z.shiftl_mul_pow2 by lia. change (2 ^ 1) with 2.
  unfold double. rewrite nbs_bs.
  destruct v as [|x v]; [rewrite len_nil in Hl; lia|]. apply bytes_ok_cons in Hok as [Hx Hok]. change (nth (Z.to_nat 0) (x :: v) 0) with x.
  rewrite bytearray_to_int_cons. pose proof (bytearray_to_int_bound v Hok) as Hb. rewrite len_cons in Hl. unfold byte_ok in Hx.
  pose proof (len_nonneg v). replace (256 ^ bs c) with (256 * 256 ^ len v) by (rewrite <- Hl, Z.pow_add_r by lia; lia).
  assert (Hland : Z.land x 128 = if x <? 128 then 0 else 128).
  { assert (Q : forallb (fun x => Z.land x 128 =? (if x <? 128 then 0 else 128)) (map Z.of_nat (seq 0 256)) = true) by (vm_compute; reflexivity).
    rewrite forallb_forall in Q. specialize (Q x). rewrite Z.eqb_eq in Q. apply Q. apply in_map_iff. exists (Z.to_nat x). split; [lia|]. apply in_seq. lia. }
  rewrite Hland. destruct (x <? 128) eqn:Ex.
  - change (0 =? 0) with true. cbv iota. replace (2 * (x * 256 ^ len v + bytearray_to_int v) <? 256 * 256 ^ len v) with true by nia.
    do 2 f_equal. lia.
  - change (128 =? 0) with false. cbv iota. replace (2 * (x * 256 ^ len v + bytearray_to_int v) <? 256 * 256 ^ len v) with false by nia.
    rewrite xor_of_ints. do 3 f_equal. lia.
Qed.

Lemma be_bytes_block c v : block c (be_bytes (nbs c) v).
Proof. rewrite be_bytes_eq, nbs_bs. split; [rewrite int_to_bytearray_len; pose proof (bs_pos c); lia | apply int_to_bytearray_ok]. Qed.

Lemma be_value_range c v : block c v -> 0 <= be_value v < 256 ^ bs c.
Proof. intros [Hl Hok]. rewrite be_value_eq. pose proof (bytearray_to_int_bound v Hok) as H. now rewrite Hl in H. Qed.

Lemma be_value_of c v : 0 <= v < 256 ^ bs c -> be_value (be_bytes (nbs c) v) = v.
Proof. intros Hv. rewrite be_value_eq, be_bytes_eq, nbs_bs. apply to_int_of_int_small; [pose proof (bs_pos c); lia | exact Hv]. Qed.

Lemma zero_block_eq c : zero_block c = repeat 0 (nbs c).
Proof. reflexivity. Qed.

Lemma keys_ok c : co_ok c ->
  _get_mac_key (bs c) (oE c (zero_block c)) = Ok (mac_key1 (oE c) (nbs c), mac_key2 (oE c) (nbs c)).
Proof.
  intros Hc. assert (HR : block c (oE c (zero_block c))) by (apply oE_block; [exact Hc | apply zero_block_ok]).
  unfold _get_mac_key. cbv zeta. rewrite double_ok by exact HR. cbn [bind]. rewrite double_ok by apply be_bytes_block. cbn [bind].
  unfold mac_key1, mac_key2. rewrite be_value_of by (apply double_range; now apply be_value_range). reflexivity.
Qed.

(** ** The final step *)

Definition final_value (c : cipher_obj) (k1 k2 : bytes) (bl : list bytes) (t : bytes) : bytes :=
  match t, bl with
  | [], _ :: _ => oE c (bxor (bxor (last bl []) (cbc_mac (oE c) (zero_block c) (removelast bl))) k1)
  | _, _ => oE c (bxor (bxor (pad3 c t) (cbc_mac (oE c) (zero_block c) bl)) k2)
  end.
(** What [mac_final] leaves in the buffer. *)
Definition final_buff (c : cipher_obj) (bl : list bytes) (t : bytes) : bytes :=
  match t, bl with [], _ :: _ => last bl [] | _, _ => pad3 c t end.

Lemma last_forall {A} (P : A -> Prop) l d : Forall P l -> l <> [] -> P (last l d).
Proof. intros HF Hne. destruct (exists_last Hne) as (l' & x & ->). rewrite last_last. apply Forall_app in HF as [_ HF]. now inversion HF. Qed.

Lemma final_ok m bl t : core m bl t -> m_fin_buff m = fin_of bl t -> block (m_cipher m) (m_key_1 m) -> block (m_cipher m) (m_key_2 m) ->
  mac_final m = (Ok (final_value (m_cipher m) (m_key_1 m) (m_key_2 m) bl t),
                 with_state m (final_buff (m_cipher m) bl t) (m_iter_buf m) (m_prev_mac m) (m_cur_mac m)).
Proof.
  intros H Hf Hk1 Hk2. pose proof (core_prev_block m bl t H) as Hpv. set (c := m_cipher m) in *.
  pose proof (bs_pos c) as Hpos. pose proof (core_co m bl t H) as Hc. fold c in Hc.
  pose proof (core_bl m bl t H) as HF. fold c in HF. pose proof (core_t m bl t H) as Hto. pose proof (core_tl m bl t H) as Htl. fold c in Htl.
  pose proof (core_prev m bl t H) as Hp. fold c in Hp.
  unfold mac_final, bindM at 1, getM. cbv zeta. unfold mac_block_size. fold c. rewrite Hf.
  assert (Hgen : forall fb k, block c fb -> block c k ->
    (putM (with_state m fb (m_iter_buf m) (m_prev_mac m) (m_cur_mac m)) ;! liftM (co_encrypt c (add_xor (add_xor fb (m_prev_mac m)) k))) m =
    (Ok (oE c (bxor (bxor fb (m_prev_mac m)) k)), with_state m fb (m_iter_buf m) (m_prev_mac m) (m_cur_mac m))).
  { intros fb k Hfb Hk. unfold bindM, putM, liftM. rewrite !bxor_eq.
    destruct (co_enc c (add_xor (add_xor fb (m_prev_mac m)) k) Hc) as [-> _]; [|reflexivity]. apply xor_block; [|exact Hk]. now apply xor_block. }
  unfold with_state in Hgen. fold c in Hgen.
  assert (Hwhole : t = [] -> bl <> [] -> _get_pad_size (bs c) (fin_of bl t) = 0 /\ fin_of bl t = last bl [] /\ block c (last bl [])).
  { intros -> Hne. unfold fin_of. rewrite app_nil_r. pose proof (last_forall _ bl [] HF Hne) as [Hl Hb]. split; [|split; [reflexivity | now split]].
    unfold _get_pad_size. rewrite Hl. rewrite Z.ltb_irrefl, Z.mod_same by lia. reflexivity. }
  assert (Hpart : t <> [] \/ bl = [] -> _get_pad_size (bs c) (fin_of bl t) =? 0 = false /\ py_from (fin_of bl t) (bs c) = t).
  { intros Hor. destruct bl as [|b0 bl0] eqn:Ebl.
    - rewrite (core_ne m [] t H eq_refl). unfold fin_of. cbn [last app]. unfold _get_pad_size. rewrite len_nil. replace (0 <? bs c) with true by lia.
      split; [lia|]. rewrite py_from_skipn by lia. apply skipn_nil.
    - rewrite <- Ebl in *. assert (Hne : bl <> []) by (rewrite Ebl; discriminate). destruct Hor as [Hne'|E]; [|contradiction].
      pose proof (last_forall _ bl [] HF Hne) as [Hl Hb]. unfold fin_of, _get_pad_size. rewrite len_app, Hl.
      assert (0 < len t) by (destruct t; [contradiction | rewrite len_cons; pose proof (len_nonneg t); lia]).
      replace (bs c + len t <? bs c) with false by lia. replace ((bs c + len t) mod bs c) with (len t).
      2:{ rewrite <- (Z.mod_small (len t) (bs c)) at 1 by lia. rewrite <- (Z.mod_add (len t) 1 (bs c)) by lia. f_equal. lia. }
      replace (len t =? 0) with false by lia. split; [lia|]. rewrite py_from_skipn by lia. rewrite <- Hl. unfold len.
      now rewrite Nat2Z.id, skipn_app, Nat.sub_diag, skipn_all. }
  destruct t as [|z t].
  - destruct bl as [|b0 bl0] eqn:Ebl.
    + destruct (Hpart (or_intror eq_refl)) as [-> ->]. rewrite pad3_block by assumption. fold (pad3 c []).
      rewrite Hgen by (try exact Hk2; apply pad3_is_block; assumption). rewrite Hp. reflexivity.
    + rewrite <- Ebl in *. assert (Hne : bl <> []) by (rewrite Ebl; discriminate).
      destruct (Hwhole eq_refl Hne) as (-> & -> & Hlb). change (0 =? 0) with true. cbv iota. rewrite Hgen by assumption. rewrite Hp.
      unfold final_value, final_buff. rewrite Ebl. reflexivity.
  - assert (Hzt : z :: t <> []) by (intro E0; inversion E0). destruct (Hpart (or_introl Hzt)) as [-> ->]. rewrite pad3_block by assumption. fold (pad3 c (z :: t)).
    rewrite Hgen by (try exact Hk2; apply pad3_is_block; assumption). rewrite Hp. reflexivity.
Qed.

(** ** The specification *)

Lemma mac_spec_eq c bl t : Forall (block c) bl -> bytes_ok t -> len t < bs c -> (bl = [] -> t = []) ->
  mac (oE c) (nbs c) (concat bl ++ t) = final_value c (mac_key1 (oE c) (nbs c)) (mac_key2 (oE c) (nbs c)) bl t.
Proof.
  intros HF Ht Htl Hne.
  assert (Hcut : cut (bs c) (concat bl ++ t) bl t) by (split; [reflexivity|]; split; [now apply blocks_lens | exact Htl]).
  pose proof (blocks_cut (bs c) _ bl t (bs_pos c) Hcut) as HB. fold (nbs c) in HB.
  pose proof (nbs_pos c) as Hn. pose proof (nbs_bs c) as Hnb.
  unfold mac, mac_blocks. destruct bl as [|b0 bl0] eqn:Ebl.
  - rewrite (Hne eq_refl). cbn [concat app last removelast List.length]. replace (0 =? nbs c)%nat with false by lia.
    unfold final_value, pad3. cbn [app List.length cbc_mac fold_left]. reflexivity.
  - rewrite <- Ebl in *. assert (Hbl : bl <> []) by (rewrite Ebl; discriminate).
    assert (Hm : concat bl ++ t <> []).
    { intros E. apply (f_equal (@List.length Z)) in E. rewrite Ebl in E, HF. apply Forall_inv in HF. cbn [concat] in E.
      rewrite !app_length in E. apply block_length in HF. cbn in E. lia. }
    replace (match concat bl ++ t with [] => [[]] | _ => blocks (nbs c) (concat bl ++ t) end) with (bl ++ opt_block t)
      by (destruct (concat bl ++ t); [contradiction | now rewrite HB]).
    destruct t as [|z t].
    + cbn [opt_block]. rewrite app_nil_r. pose proof (last_forall _ bl [] HF Hbl) as Hlb. apply block_length in Hlb. rewrite Hlb, Nat.eqb_refl.
      unfold final_value. rewrite Ebl. reflexivity.
    + cbn [opt_block]. rewrite last_last, removelast_last. replace (List.length (z :: t) =? nbs c)%nat with false by (unfold len in Htl; lia).
      reflexivity.
Qed.

Section Agree.
  Variables (c : cipher_obj) (E : bytes -> bytes).
  Hypothesis Hc : co_ok c.
  Hypothesis agree : forall b, block c b -> oE c b = E b.

  Lemma cbc_mac_ext v ps : block c v -> Forall (block c) ps -> cbc_mac (oE c) v ps = cbc_mac E v ps.
  Proof.
    intros Hv HF. revert v Hv. induction HF as [|p ps Hp HF IH]; intros v Hv; [reflexivity|].
    cbn. assert (Hb : block c (bxor p v)) by now apply bxor_block. rewrite <- agree by exact Hb. apply IH. now apply oE_block.
  Qed.

  Lemma keys_ext : mac_key1 (oE c) (nbs c) = mac_key1 E (nbs c) /\ mac_key2 (oE c) (nbs c) = mac_key2 E (nbs c).
  Proof. unfold mac_key1, mac_key2. rewrite <- !zero_block_eq, !agree by apply zero_block_ok. auto. Qed.

  Lemma mac_ext bl t : Forall (block c) bl -> bytes_ok t -> len t < bs c -> (bl = [] -> t = []) ->
    mac (oE c) (nbs c) (concat bl ++ t) = mac E (nbs c) (concat bl ++ t).
  Proof.
    intros HF Ht Htl Hne. destruct keys_ext as [K1 K2].
    assert (HK1 : block c (mac_key1 E (nbs c))) by apply be_bytes_block.
    assert (HK2 : block c (mac_key2 E (nbs c))) by apply be_bytes_block.
    assert (Hcut : cut (bs c) (concat bl ++ t) bl t) by (split; [reflexivity|]; split; [now apply blocks_lens | exact Htl]).
    pose proof (blocks_cut (bs c) _ bl t (bs_pos c) Hcut) as HB. fold (nbs c) in HB.
    unfold mac. rewrite K1, K2.
    assert (HR : Forall (block c) (removelast (mac_blocks (nbs c) (concat bl ++ t)))).
    { unfold mac_blocks. destruct (concat bl ++ t) as [|zz ll]; [constructor|]. rewrite HB. destruct t as [|z t]; [rewrite app_nil_r; now apply removelast_forall|].
      cbn [opt_block]. now rewrite removelast_last. }
    rewrite <- zero_block_eq. rewrite cbc_mac_ext by (try apply zero_block_ok; exact HR).
    assert (HV : block c (cbc_mac E (zero_block c) (removelast (mac_blocks (nbs c) (concat bl ++ t)))))
      by (rewrite <- cbc_mac_ext by (try apply zero_block_ok; exact HR); apply cbc_mac_block; [exact Hc | apply zero_block_ok | exact HR]).
    set (l := last (mac_blocks (nbs c) (concat bl ++ t)) []).
    assert (Hl : bytes_ok l /\ (List.length l <= nbs c)%nat).
    { subst l. unfold mac_blocks. pose proof (nbs_pos c). destruct (concat bl ++ t) as [|zz ll]; [cbn; split; [constructor | lia]|]. rewrite HB. destruct t as [|z t].
      - rewrite app_nil_r. destruct bl as [|b0 bl0]; [cbn; split; [constructor | lia]|].
        pose proof (last_forall _ _ [] HF ltac:(discriminate)) as Hlb. pose proof (block_length c _ Hlb). split; [apply Hlb | lia].
      - cbn [opt_block]. rewrite last_last. split; [exact Ht|]. pose proof (nbs_bs c). unfold len in Htl. lia. }
    destruct (Nat.eqb_spec (List.length l) (nbs c)) as [El|El].
    - apply agree. apply bxor_block; [|exact HK1]. apply bxor_block; [|exact HV]. split; [pose proof (nbs_bs c); unfold len; lia | apply Hl].
    - apply agree. apply bxor_block; [|exact HK2]. apply bxor_block; [|exact HV]. apply (pad3_is_block c l); [apply Hl|]. pose proof (nbs_bs c). unfold len. lia.
  Qed.
End Agree.
