(** * Properties of MAC objects *)
From Verif Require Import PyBase PyFacts PyState Utils UtilsFacts CipherObj Modes Mac SpecNew.
From Verif Require Import SpecModes CipherLemmas CipherObjFacts ModeFacts ModeSpecFacts ModeLemmas ModeProps ModeSim ModeNew MacFacts MacFacts2 MacLemmas.
Open Scope string_scope.
Open Scope list_scope.
Open Scope Z_scope.

Lemma kw_data_of a key d m : mac_object a key d m -> bytes_len 32 key -> bytes_ok d -> tracks a key d m.
Proof.
  intros (kw & Hd & Hn) Hk Hok. pose proof (new_mac_cases a key kw d Hk Hd Hok) as H.
  destruct (_ && _); [congruence|]. destruct H as (m' & Hn' & HT). rewrite Hn in Hn'. now injection Hn' as ->.
Qed.

(** ** Streaming *)

(** Updates with byte strings and digests only. *)
Definition plain_call (c : mcall) : Prop :=
  match c with MUpdate (VBytes d) => bytes_ok d | MDigest _ => True | _ => False end.
(** The chunks whose update returned normally, joined. *)
Fixpoint accepted (cs : list mcall) (rs : list (res bytes)) : bytes :=
  match cs, rs with
  | MUpdate (VBytes d) :: cs', Ok _ :: rs' => d ++ accepted cs' rs'
  | _ :: cs', _ :: rs' => accepted cs' rs'
  | _, _ => []
  end.

Lemma digest_same s m : snd (mac_digest s m) = m.
Proof. unfold mac_digest. destruct (s >? _); [reflexivity|]. now destruct (mac_final m). Qed.

Lemma tracks_run a key cs : Forall plain_call cs -> forall msg m, tracks a key msg m ->
  tracks a key (msg ++ accepted cs (fst (mrun cs m))) (snd (mrun cs m)).
Proof.
  induction 1 as [|c cs Hc HF IH]; intros msg m HT; [cbn; now rewrite app_nil_r|].
  cbn [mrun]. destruct (mstep c m) as [r m1] eqn:Es. destruct (mrun cs m1) as [rs m2] eqn:Er. cbn [fst snd accepted].
  destruct c as [d|s| |]; cbn [plain_call] in Hc; try contradiction.
  - destruct d as [d| | |]; try contradiction. pose proof (tracks_update a key msg m d HT Hc) as HU. cbn [mstep] in Es.
    destruct (_ <? _).
    + rewrite HU in Es. injection Es as <- <-. cbn [bind]. specialize (IH msg m HT). now rewrite Er in IH.
    + destruct HU as (m' & HU & HT' & _). rewrite HU in Es. injection Es as <- <-. cbn [bind].
      specialize (IH _ _ HT'). rewrite Er in IH. now rewrite <- app_assoc in IH.
  - cbn [mstep] in Es. assert (m1 = m) as -> by (pose proof (digest_same s m) as Hd; now rewrite Es in Hd).
    specialize (IH _ _ HT). rewrite Er in IH. exact IH.
Qed.

Lemma streaming a key d0 m0 cs s : bytes_len 32 key -> bytes_ok d0 -> mac_object a key d0 m0 -> Forall plain_call cs ->
  0 <= s <= Z.of_nat (bsize a) ->
  fst (mac_digest s (snd (mrun cs m0))) =
    Ok (firstn (Z.to_nat s) (mac (spec_E a key) (bsize a) (d0 ++ accepted cs (fst (mrun cs m0))))).
Proof.
  intros Hk Hd Hm HF Hs. pose proof (kw_data_of a key d0 m0 Hm Hk Hd) as HT.
  now rewrite (tracks_digest a key _ _ s (tracks_run a key cs HF d0 m0 HT) Hs).
Qed.

Lemma update_iff a key d0 m0 cs d : bytes_len 32 key -> bytes_ok d0 -> mac_object a key d0 m0 -> Forall plain_call cs -> bytes_ok d ->
  let m := snd (mrun cs m0) in let msg := d0 ++ accepted cs (fst (mrun cs m0)) in
  if len msg mod Z.of_nat (bsize a) + len d <? Z.of_nat (bsize a)
  then mac_update (VBytes d) m = (Err IndexError, m)
  else exists m', mac_update (VBytes d) m = (Ok tt, m').
Proof.
  intros Hk Hd0 Hm HF Hd. cbv zeta. pose proof (kw_data_of a key d0 m0 Hm Hk Hd0) as HT.
  pose proof (tracks_update a key _ _ d (tracks_run a key cs HF d0 m0 HT) Hd) as HU. destruct (_ <? _); [exact HU|].
  destruct HU as (m' & HU & _). now exists m'.
Qed.

(** The state is a function of the message. *)
Lemma cut_unique n data bl t bl' t' : 0 < n -> cut n data bl t -> cut n data bl' t' -> bl = bl' /\ t = t'.
Proof.
  intros Hn H H'. pose proof (get_blocks n data bl t Hn H) as G. rewrite (get_blocks n data bl' t' Hn H') in G. subst bl'.
  split; [reflexivity|]. destruct H as [-> _], H' as [H' _]. now apply app_inv_head in H'.
Qed.

Lemma tracks_unique a key msg m m' : tracks a key msg m -> tracks a key msg m' -> m_cipher m = m_cipher m' -> m = m'.
Proof.
  intros [Hm K1 K2 (bl & t & Hmsg & H & Hf)] [Hm' K1' K2' (bl' & t' & Hmsg' & H' & Hf')] Hc.
  assert (C1 : cut (bs (m_cipher m)) msg bl t) by (split; [exact Hmsg|]; split; [apply blocks_lens; apply H | apply H]).
  assert (C2 : cut (bs (m_cipher m)) msg bl' t') by (rewrite Hc; split; [exact Hmsg'|]; split; [apply blocks_lens; apply H' | apply H']).
  destruct (cut_unique _ _ _ _ _ _ (bs_pos _) C1 C2) as [<- <-].
  pose proof (core_iter _ _ _ H). pose proof (core_iter _ _ _ H'). pose proof (core_cur _ _ _ H). pose proof (core_cur _ _ _ H').
  pose proof (core_prev _ _ _ H). pose proof (core_prev _ _ _ H'). destruct m, m'; cbn in *. subst m_cipher0. congruence.
Qed.

Lemma joined_updates a key d0 m0 cs d1 d2 m1 m2 : bytes_len 32 key -> bytes_ok d0 -> mac_object a key d0 m0 -> Forall plain_call cs ->
  bytes_ok d1 -> bytes_ok d2 -> let m := snd (mrun cs m0) in
  mac_update (VBytes d1) m = (Ok tt, m1) -> mac_update (VBytes d2) m1 = (Ok tt, m2) ->
  mac_update (VBytes (d1 ++ d2)) m = (Ok tt, m2).
Proof.
  intros Hk Hd0 Hm HF Hd1 Hd2. cbv zeta. pose proof (kw_data_of a key d0 m0 Hm Hk Hd0) as HT.
  pose proof (tracks_run a key cs HF d0 m0 HT) as HR. set (m := snd (mrun cs m0)) in *. set (msg := d0 ++ _) in *. clearbody m msg.
  intros E1 E2. pose proof (tracks_update a key msg m d1 HR Hd1) as U1. destruct (_ <? _) eqn:L1; [rewrite U1 in E1; discriminate E1|].
  destruct U1 as (m1' & U1 & T1 & C1). rewrite E1 in U1. injection U1 as <-.
  pose proof (tracks_update a key _ m1 d2 T1 Hd2) as U2. match type of U2 with (if ?c then _ else _) => destruct c eqn:L2 end; [rewrite U2 in E2; discriminate E2|].
  destruct U2 as (m2' & U2 & T2 & C2). rewrite E2 in U2. injection U2 as <-.
  assert (Hd : bytes_ok (d1 ++ d2)) by (apply bytes_ok_app; auto).
  pose proof (tracks_update a key msg m (d1 ++ d2) HR Hd) as U3. rewrite len_app in U3.
  replace (len msg mod Z.of_nat (bsize a) + (len d1 + len d2) <? Z.of_nat (bsize a)) with false in U3 by (pose proof (len_nonneg d2); lia).
  destruct U3 as (m3 & U3 & T3 & C3). rewrite U3. f_equal. apply (tracks_unique a key (msg ++ d1 ++ d2)); [exact T3 | now rewrite app_assoc | congruence].
Qed.

(** ** Digests of objects in any state *)
Record mac_valid (a : balg) (m : mac_obj) : Prop := {
  mv_co : co_ok (m_cipher m);
  mv_alg : co_alg (m_cipher m) = a;
  mv_k1 : block (m_cipher m) (m_key_1 m);
  mv_k2 : block (m_cipher m) (m_key_2 m);
  mv_prev : block (m_cipher m) (m_prev_mac m);
  mv_cur : block (m_cipher m) (m_cur_mac m);
  mv_iter : bytes_ok (m_iter_buf m);
  mv_iterl : len (m_iter_buf m) < bs (m_cipher m);
  mv_fin : bytes_ok (m_fin_buff m);
  mv_finl : m_fin_buff m = [] \/ bs (m_cipher m) <= len (m_fin_buff m) < 2 * bs (m_cipher m)
}.

Lemma tracks_valid a key msg m : tracks a key msg m -> mac_valid a m.
Proof.
  intros [Hm K1 K2 (bl & t & Hmsg & H & Hf)]. assert (Hn := made_nbs _ _ _ Hm). split.
  - apply H.
  - apply Hm.
  - rewrite K1, <- Hn. apply be_bytes_block.
  - rewrite K2, <- Hn. apply be_bytes_block.
  - now apply (core_prev_block m bl t).
  - now apply (core_cur_block m bl t).
  - rewrite (core_iter _ _ _ H). apply H.
  - rewrite (core_iter _ _ _ H). apply H.
  - rewrite Hf. unfold fin_of. apply bytes_ok_app. split; [|apply H]. destruct bl as [|b0 bl0] eqn:E; [constructor|].
    apply (last_forall (block (m_cipher m)) (b0 :: bl0)); [apply H | discriminate].
  - rewrite Hf. unfold fin_of. pose proof (core_tl _ _ _ H). pose proof (len_nonneg t). destruct bl as [|b0 bl0] eqn:E.
    + left. cbn [last app]. exact (core_ne _ _ _ H eq_refl).
    + right. rewrite len_app. pose proof (last_forall (block (m_cipher m)) (b0 :: bl0) [] (core_bl _ _ _ H) ltac:(discriminate)) as [-> _]. lia.
Qed.

Lemma mac_clear_eq m : co_ok (m_cipher m) -> exists c, mac_clear m =
  (Ok tt, {| m_cipher := c; m_key_1 := m_key_1 m; m_key_2 := m_key_2 m; m_fin_buff := m_fin_buff m; m_iter_buf := m_iter_buf m; m_prev_mac := m_prev_mac m; m_cur_mac := m_cur_mac m |}) /\
  co_ok c /\ co_alg c = co_alg (m_cipher m) /\
  (forall b, block (m_cipher m) b -> oE c b = oE (cleared_obj (co_alg (m_cipher m))) b /\ oD c b = oD (cleared_obj (co_alg (m_cipher m))) b).
Proof.
  intros Hc. destruct (co_clear_ok (m_cipher m) Hc) as (c & E & H). exists c. unfold mac_clear, bindM, getM, liftM. rewrite E. split; [reflexivity|]. exact H.
Qed.

Lemma clear_valid a m : mac_valid a m -> mac_valid a (snd (mac_clear m)).
Proof.
  intros H. destruct (mac_clear_eq m (mv_co a m H)) as (c & -> & K1 & K2 & _). cbn [snd].
  assert (Hbs : bs c = bs (m_cipher m)) by (rewrite !bs_alg; now rewrite K2).
  assert (HB : forall b, block (m_cipher m) b -> block c b) by (intros b Hb; now apply (block_alg (m_cipher m) c)).
  split; cbn [m_cipher m_key_1 m_key_2 m_fin_buff m_iter_buf m_prev_mac m_cur_mac]; rewrite ?Hbs; first [exact K1 | rewrite K2; apply H | apply HB; apply H | apply H].
Qed.

(** [update] does not look at the buffer of [mac_final]. *)
Definition set_fin (m : mac_obj) (x : bytes) : mac_obj := with_state m x (m_iter_buf m) (m_prev_mac m) (m_cur_mac m).

Lemma lift_loop {S A B} (s s' : S) (l : list A) (acc : B) (f : A -> B -> res B) r :
  forM l acc (fun i acc => liftM (f i acc)) s = r -> forM l acc (fun i acc => liftM (f i acc)) s' = (fst r, s') /\ snd r = s.
Proof.
  revert acc r; induction l as [|x l IH]; intros acc r; cbn [forM]; [unfold retM; intros <-; auto|].
  unfold bindM, liftM at 1 3. destruct (f x acc); [intros E; apply IH in E; exact E | intros <-; auto].
Qed.

Lemma update_set_fin m x d : mac_update (VBytes d) (set_fin m x) =
  match mac_update (VBytes d) m with (Ok u, m') => (Ok u, m') | (Err e, _) => (Err e, set_fin m x) end.
Proof.
  unfold mac_update, bindM, getM, liftM, putM, mac_block_size.
  change (m_iter_buf (set_fin m x)) with (m_iter_buf m).
  change (m_cur_mac (set_fin m x)) with (m_cur_mac m). change (m_cipher (set_fin m x)) with (m_cipher m).
  change (m_key_1 (set_fin m x)) with (m_key_1 m). change (m_key_2 (set_fin m x)) with (m_key_2 m).
  set (f := fun i prev => co_encrypt (m_cipher m) (add_xor prev (_get_block (bs (m_cipher m)) (m_iter_buf m ++ d) i))).
  destruct (lift_loop m (set_fin m x) (py_range 0 (_get_num_block (bs (m_cipher m)) (m_iter_buf m ++ d) - 1) 1) (m_cur_mac m) f _ eq_refl) as [E1 E2].
  unfold liftM in E1, E2. subst f. cbv beta in E1, E2. rewrite E1.
  destruct (forM _ (m_cur_mac m) _ m) as [r s']. cbn [fst snd] in *. subst s'.
  destruct r as [prev|e]; [|reflexivity].
  destruct (_ =? 0); destruct (co_encrypt _ _); reflexivity.
Qed.

Lemma update_valid a m d : mac_valid a m -> bytes_ok d -> mac_valid a (snd (mac_update (VBytes d) m)).
Proof.
  intros H Hd. set (c := m_cipher m) in *. pose proof (bs_pos c) as Hpos.
  destruct (Z.lt_ge_cases (len (m_iter_buf m ++ d)) (bs c)) as [Hl|Hl].
  - rewrite update_short; [exact H | apply H | exact Hl].
  - pose proof (mv_co a m H) as Hc. pose proof (mv_cur a m H) as Hcur. pose proof (mv_iter a m H) as Hit. fold c in Hc, Hcur.
    assert (Hcb : bytes_ok (m_iter_buf m ++ d)) by (apply bytes_ok_app; auto).
    destruct (cut_exists (bs c) (m_iter_buf m ++ d) Hpos) as (blx & t' & Hcut).
    destruct (cut_bytes _ _ _ _ Hcut Hcb) as [HF Ht'].
    assert (Hblx : blx <> []). { intros ->. destruct Hcut as (E & _ & Hx). cbn in E. rewrite E in Hl. lia. }
    destruct (exists_last Hblx) as (bl1 & b & ->).
    (* the same loop on an object that has just processed the pending bytes *)
    set (x := m_iter_buf m ++ d) in *.
    destruct (cut_pad c x (bl1 ++ [b]) t' Hcut Hblx) as [Hpad Hlen].
    assert (HF' := HF). apply Forall_app in HF' as [HF1 HFb]. apply Forall_inv in HFb.
    assert (Hl1 : len (concat bl1) = bs c * len bl1) by (apply concat_len; apply blocks_lens; exact HF1).
    assert (Hx : x = concat bl1 ++ b ++ t') by (destruct Hcut as (-> & _ & _); rewrite concat_app; cbn [concat]; now rewrite app_nil_r, <- app_assoc).
    assert (Hn : _get_num_block (bs c) x - 1 = len bl1) by (rewrite (cut_num _ _ _ _ Hpos Hcut), len_app; unfold len; cbn; lia).
    assert (Hlb : len b = bs c) by apply HFb.
    rewrite len_app in Hlen. change (len [b]) with 1 in Hlen. pose proof (len_nonneg bl1). pose proof (len_nonneg t').
    pose proof (cbc_mac_block c _ bl1 Hc Hcur HF1) as Hcv.
    unfold mac_update, bindM at 1, getM at 1. fold x. cbv zeta. unfold mac_block_size. fold c.
    unfold bindM at 1. rewrite (forM_map (_get_block (bs c) x) _ _ (fun b prev => liftM (co_encrypt c (add_xor prev b)))).
    rewrite (removelast_range (bs c) x bl1 t' b Hpos Hcut). rewrite mac_loop by (try exact Hc; try exact Hcur; exact HF1).
    rewrite Hpad, Hn.
    assert (Hfin : py_from x (bs c * len bl1) = b ++ t').
    { rewrite py_from_skipn by nia. rewrite <- Hl1, Hx. unfold len. rewrite Nat2Z.id, skipn_app, Nat.sub_diag, skipn_all. reflexivity. }
    assert (Hmid : py_slice x (bs c * len bl1) (bs c * len bl1 + bs c) = b).
    { rewrite py_slice_mid by nia. replace (Z.to_nat (bs c * len bl1)) with (List.length (concat bl1)) by (unfold len in *; lia).
      rewrite Hx, skipn_app, Nat.sub_diag, skipn_all.
      cbn [app skipn]. replace (Z.to_nat (bs c * len bl1 + bs c - bs c * len bl1)) with (List.length b) by (unfold len in *; lia).
      now rewrite firstn_app, Nat.sub_diag, firstn_all, firstn_O, app_nil_r. }
    destruct (co_enc c (add_xor (cbc_mac (oE c) (m_cur_mac m) bl1) b) Hc (xor_block c _ _ Hcv HFb)) as [E1 E2].
    pose proof (proj2 (proj2 Hcut)) as Htl.
    assert (Hfb : bytes_ok (b ++ t')) by (apply bytes_ok_app; split; [apply HFb | exact Ht']).
    assert (Hfl : bs c <= len (b ++ t') < 2 * bs c) by (rewrite len_app; lia).
    destruct t' as [|z t'].
    + rewrite Z.eqb_refl. cbv beta iota. rewrite len_nil in Hlen.
      replace (len x - bs c) with (bs c * len bl1) by lia. replace (len x) with (bs c * len bl1 + bs c) by lia.
      rewrite Hfin, Hmid. unfold bindM, liftM, putM. rewrite E1. cbn [snd]. split; cbn; auto; try apply H; fold c; auto.
    + set (tz := z :: t') in *. cbn match. replace (bs c - len tz =? 0) with false by lia. cbv beta iota.
      replace (len x - 2 * bs c + (bs c - len tz)) with (bs c * len bl1) by lia.
      replace (len x - bs c + (bs c - len tz)) with (bs c * len bl1 + bs c) by lia.
      rewrite Hfin, Hmid. unfold bindM, liftM, putM. rewrite E1. cbn [snd].
      assert (Hit' : py_from x (bs c * len bl1 + bs c) = tz).
      { rewrite py_from_skipn by nia. rewrite <- Hl1, <- Hlb, <- len_app, Hx, app_assoc. unfold len. rewrite Nat2Z.id, skipn_app, Nat.sub_diag, skipn_all. reflexivity. }
      rewrite Hit'. split; cbn [m_cipher m_key_1 m_key_2 m_fin_buff m_iter_buf m_prev_mac m_cur_mac]; try apply H; fold c; auto.
Qed.

Lemma final_valid a m : mac_valid a m -> exists v, mac_final m = (Ok v, snd (mac_final m)) /\ block (m_cipher m) v /\ mac_valid a (snd (mac_final m)).
Proof.
  intros H. set (c := m_cipher m) in *. pose proof (bs_pos c) as Hpos. pose proof (mv_co a m H) as Hc. pose proof (mv_prev a m H) as Hpv. fold c in Hc, Hpv.
  enough (G : exists v m', mac_final m = (Ok v, m') /\ block c v /\ mac_valid a m') by (destruct G as (v & m' & E & Hv & HV); exists v; rewrite E; auto).
  unfold mac_final, bindM at 1, getM. cbv zeta. unfold mac_block_size. fold c.
  assert (Hgen : forall fb k, block c fb -> block c k -> exists v,
    (putM (set_fin m fb) ;! liftM (co_encrypt c (add_xor (add_xor fb (m_prev_mac m)) k))) m = (Ok v, set_fin m fb) /\ block c v /\ mac_valid a (set_fin m fb)).
  { intros fb k Hfb Hk. unfold bindM, putM, liftM.
    destruct (co_enc c (add_xor (add_xor fb (m_prev_mac m)) k) Hc) as [E1 E2]; [apply xor_block; [|exact Hk]; now apply xor_block|].
    eexists. split; [rewrite E1; reflexivity|]. split; [exact E2|].
    split; cbn [set_fin with_state m_cipher m_key_1 m_key_2 m_fin_buff m_iter_buf m_prev_mac m_cur_mac]; try apply H; [apply Hfb|]. right. destruct Hfb as [-> _]. fold c. lia. }
  unfold set_fin, with_state in Hgen. fold c in Hgen.
  destruct (_get_pad_size (bs c) (m_fin_buff m) =? 0) eqn:E.
  - assert (Hfb : block c (m_fin_buff m)).
    { split; [|apply H]. pose proof (mv_finl a m H) as Hf. fold c in Hf. unfold _get_pad_size in E. destruct Hf as [Hf|Hf]; [rewrite Hf, len_nil in E; replace (0 <? bs c) with true in E by lia; lia|].
      replace (len (m_fin_buff m) <? bs c) with false in E by lia. destruct (len (m_fin_buff m) mod bs c =? 0) eqn:E'; [|lia].
      apply Z.eqb_eq in E'. apply Z.mod_divide in E' as [q E']; [|lia]. assert (q = 1) as -> by nia. lia. }
    destruct (Hgen _ _ Hfb (mv_k1 a m H)) as (v & -> & Hv & HV). eauto.
  - assert (Hs : bytes_ok (py_from (m_fin_buff m) (bs c)) /\ len (py_from (m_fin_buff m) (bs c)) < bs c).
    { split; [apply bytes_ok_from; apply H|]. rewrite py_from_skipn by lia. unfold len. rewrite skipn_length. pose proof (mv_finl a m H) as Hf. fold c in Hf.
      destruct Hf as [Hf|Hf]; [rewrite Hf; cbn; lia | unfold len in Hf; lia]. }
    rewrite pad3_block by apply Hs. fold (pad3 c (py_from (m_fin_buff m) (bs c))).
    destruct (Hgen _ _ (pad3_is_block c _ (proj1 Hs) (proj2 Hs)) (mv_k2 a m H)) as (v & -> & Hv & HV). eauto.
Qed.

Lemma step_valid a m c : mac_valid a m -> mcall_ok c -> mac_valid a (snd (mstep c m)).
Proof.
  intros H Hc. destruct c as [d|s| |]; cbn [mstep].
  - destruct d as [d|s|z|]; cbn [mcall_ok arg_ok] in Hc.
    + pose proof (update_valid a m d H Hc) as U. now destruct (mac_update (VBytes d) m).
    + pose proof (clear_valid a m H) as U. cbn [mac_update]. unfold bindM. destruct (mac_clear m) as [[|] ?]; exact U.
    + pose proof (clear_valid a m H) as U. cbn [mac_update]. unfold bindM. destruct (mac_clear m) as [[|] ?]; exact U.
    + pose proof (clear_valid a m H) as U. cbn [mac_update]. unfold bindM. destruct (mac_clear m) as [[|] ?]; exact U.
  - now rewrite digest_same.
  - destruct (final_valid a m H) as (v & _ & _ & HV). exact HV.
  - pose proof (clear_valid a m H) as U. now destruct (mac_clear m).
Qed.

Lemma run_valid a cs : Forall mcall_ok cs -> forall m, mac_valid a m -> mac_valid a (snd (mrun cs m)).
Proof.
  induction 1 as [|c cs Hc HF IH]; intros m H; [exact H|]. cbn [mrun]. pose proof (step_valid a m c H Hc) as Hs.
  destruct (mstep c m) as [r m1]. specialize (IH m1 Hs). destruct (mrun cs m1). exact IH.
Qed.

Lemma used_valid a key m : bytes_len 32 key -> mac_used a key m -> mac_valid a m.
Proof.
  intros Hk (d & m0 & cs & Hd & Hm & HF & ->). apply run_valid; [exact HF|]. apply (tracks_valid a key d). now apply kw_data_of.
Qed.

Definition size_error : exn := GOSTCipherError "GOSTCipherError: invalid message authentication code size".

Lemma digest_any a key m : bytes_len 32 key -> mac_used a key m ->
  exists d, List.length d = bsize a /\ forall s,
    (0 <= s <= Z.of_nat (bsize a) -> mac_digest s m = (Ok (firstn (Z.to_nat s) d), m)) /\
    (s < 0 -> mac_digest s m = (Ok (firstn (Z.to_nat (Z.of_nat (bsize a) + s)) d), m)) /\
    (Z.of_nat (bsize a) < s -> mac_digest s m = (Err size_error, m)).
Proof.
  intros Hk Hu. pose proof (used_valid a key m Hk Hu) as HV. destruct (final_valid a m HV) as (v & E & Hv & _).
  pose proof (block_length _ _ Hv) as HL. pose proof (mv_alg a m HV) as Ha. rewrite (proj2 (bsize_eq _ _ Ha)) in HL.
  exists v. split; [exact HL|]. intros s. rewrite !(digest_eq a) by exact Ha. rewrite E. cbn [fst bind].
  assert (HLZ : len v = Z.of_nat (bsize a)) by (unfold len; lia). repeat split; intros Hs.
  - replace (s >? Z.of_nat (bsize a)) with false by lia. now rewrite py_slice_0 by lia.
  - replace (s >? Z.of_nat (bsize a)) with false by lia. do 2 f_equal. unfold py_slice, clamp. rewrite HLZ.
    replace (0 <? 0) with false by lia. replace (Z.of_nat (bsize a) <? 0) with false by lia. replace (s <? 0) with true by lia.
    cbn [Z.to_nat skipn]. rewrite Z.sub_0_r. destruct (s + Z.of_nat (bsize a) <? 0) eqn:E1.
    + now replace (Z.to_nat (Z.of_nat (bsize a) + s)) with 0%nat by lia.
    + replace (Z.of_nat (bsize a) <? s + Z.of_nat (bsize a)) with false by lia. f_equal. lia.
  - now replace (s >? Z.of_nat (bsize a)) with true by lia.
Qed.

(** Digests can be left out of a history. *)
Definition not_digest (c : mcall) : bool := match c with MDigest _ => false | _ => true end.
Lemma digest_transparent cs m : snd (mrun cs m) = snd (mrun (filter not_digest cs) m).
Proof.
  revert m; induction cs as [|c cs IH]; intros m; [reflexivity|]. cbn [mrun filter].
  destruct c as [d|s| |]; cbn [not_digest mrun].
  - destruct (mstep (MUpdate d) m) as [r m1]. specialize (IH m1). destruct (mrun cs m1), (mrun (filter not_digest cs) m1). exact IH.
  - pose proof (digest_same s m) as Hs. cbn [mstep]. destruct (mac_digest s m) as [r m1]. cbn [snd] in Hs. subst m1.
    specialize (IH m). destruct (mrun cs m). exact IH.
  - destruct (mstep MFinal m) as [r m1]. specialize (IH m1). destruct (mrun cs m1), (mrun (filter not_digest cs) m1). exact IH.
  - destruct (mstep MClear m) as [r m1]. specialize (IH m1). destruct (mrun cs m1), (mrun (filter not_digest cs) m1). exact IH.
Qed.
