(** * Facts about MAC objects *)
From Verif Require Import PyBase PyFacts PyState Utils UtilsFacts CipherObj Modes Mac.
From Verif Require Import SpecModes CipherLemmas CipherObjFacts ModeFacts ModeSpecFacts ModeLemmas.

Lemma slice_to_0 (x : bytes) a : py_slice x a 0 = [].
Proof.
  unfold py_slice. assert (H0 : clamp (len x) 0 = 0) by (unfold clamp; pose proof (len_nonneg x); destruct (0 <? 0) eqn:?; [lia|]; replace (len x <? 0) with false by lia; reflexivity).
  rewrite H0. assert (Ha : 0 <= clamp (len x) a).
  { unfold clamp. pose proof (len_nonneg x). set (j := if a <? 0 then a + len x else a). destruct (j <? 0) eqn:?; [lia|]. destruct (len x <? j) eqn:?; lia. }
  now replace (Z.to_nat (0 - clamp (len x) a)) with 0%nat by lia.
Qed.

(** ** Padding 3 *)

Lemma zeros_ok n : bytes_ok (repeat 0 n).
Proof. apply Forall_forall. intros x Hx. apply repeat_spec in Hx as ->. unfold byte_ok. lia. Qed.

Lemma pad3_block c t : bytes_ok t -> len t < bs c ->
  _set_pad_mode_3 (bs c) t = t ++ 0x80 :: repeat 0 (nbs c - 1 - List.length t).
Proof.
  intros Ht Hl. unfold _set_pad_mode_3, _get_pad_size. replace (len t <? bs c) with true by lia.
  replace (bs c - len t =? 0) with false by lia. cbn [app]. do 2 f_equal. unfold py_repeat. f_equal. unfold nbs, len in *. lia.
Qed.
Definition pad3 (c : cipher_obj) (t : bytes) : bytes := t ++ 0x80 :: repeat 0 (nbs c - 1 - List.length t).
Lemma pad3_is_block c t : bytes_ok t -> len t < bs c -> block c (pad3 c t).
Proof.
  intros Ht Hl. unfold pad3. split.
  - pose proof (nbs_bs c). unfold len in *. rewrite app_length. cbn [List.length]. rewrite repeat_length. lia.
  - apply bytes_ok_app. split; [exact Ht|]. apply bytes_ok_cons. split; [unfold byte_ok; lia|]. apply zeros_ok.
Qed.

(** ** CBC-MAC *)
Lemma cbc_mac_block c v ps : co_ok c -> block c v -> Forall (block c) ps -> block c (cbc_mac (oE c) v ps).
Proof.
  intros Hc Hv HF. revert v Hv. induction HF as [|p ps Hp HF IH]; intros v Hv; [exact Hv|].
  cbn. apply IH. apply oE_block; [exact Hc|]. now apply bxor_block.
Qed.
Lemma cbc_mac_app E v a b : cbc_mac E v (a ++ b) = cbc_mac E (cbc_mac E v a) b.
Proof. unfold cbc_mac. apply fold_left_app. Qed.
Lemma cbc_mac_snoc E v a b : cbc_mac E v (a ++ [b]) = E (bxor b (cbc_mac E v a)).
Proof. now rewrite cbc_mac_app. Qed.

Lemma mac_loop {S} (s : S) c v ps : co_ok c -> block c v -> Forall (block c) ps ->
  forM ps v (fun b prev => liftM (co_encrypt c (add_xor prev b))) s = (Ok (cbc_mac (oE c) v ps), s).
Proof.
  intros Hc Hv HF. revert v Hv. induction HF as [|p ps Hp HF IH]; intros v Hv; [reflexivity|].
  cbn [forM cbc_mac fold_left]. unfold bindM, liftM.
  destruct (co_enc c (add_xor v p) Hc (xor_block c v p Hv Hp)) as [E1 E2]. rewrite E1.
  rewrite add_xor_comm in E2 |- *. rewrite bxor_eq. exact (IH _ E2).
Qed.

Lemma removelast_range n data bl t b : 0 < n -> cut n data (bl ++ [b]) t ->
  map (_get_block n data) (py_range 0 (_get_num_block n data - 1) 1) = bl.
Proof.
  intros Hn Hc. pose proof (get_blocks n data _ t Hn Hc) as G.
  assert (Hnum : _get_num_block n data = len bl + 1) by (rewrite (cut_num n data _ t Hn Hc), len_app; reflexivity).
  pose proof (len_nonneg bl).
  rewrite Hnum in *. rewrite Z.add_simpl_r. rewrite py_range_snoc, map_app in G by lia.
  now apply app_inj_tail in G as [G _].
Qed.

(** ** The state of a MAC object *)

Definition zero_block (c : cipher_obj) : bytes := py_repeat 0 (bs c).
Lemma zero_block_ok c : block c (zero_block c).
Proof. split; [unfold zero_block; rewrite len_repeat; pose proof (bs_pos c); lia | apply bytes_ok_repeat; unfold byte_ok; lia]. Qed.

(** What the object holds after the message [concat bl ++ t] has been processed; [bl] whole
    blocks, [t] shorter than a block. *)
Record core (m : mac_obj) (bl : list bytes) (t : bytes) : Prop := {
  core_co : co_ok (m_cipher m);
  core_bl : Forall (block (m_cipher m)) bl;
  core_t : bytes_ok t;
  core_tl : len t < bs (m_cipher m);
  core_ne : bl = [] -> t = [];
  core_iter : m_iter_buf m = t;
  core_cur : m_cur_mac m = cbc_mac (oE (m_cipher m)) (zero_block (m_cipher m)) bl;
  core_prev : m_prev_mac m = cbc_mac (oE (m_cipher m)) (zero_block (m_cipher m)) (match t with [] => removelast bl | _ => bl end);
}.
Definition fin_of (bl : list bytes) (t : bytes) : bytes := last bl [] ++ t.

Definition with_state (m : mac_obj) (fin iter prev cur : bytes) : mac_obj :=
  {| m_cipher := m_cipher m; m_key_1 := m_key_1 m; m_key_2 := m_key_2 m; m_fin_buff := fin; m_iter_buf := iter; m_prev_mac := prev; m_cur_mac := cur |}.

Lemma core_cur_block m bl t : core m bl t -> block (m_cipher m) (m_cur_mac m).
Proof. intros H. rewrite (core_cur _ _ _ H). apply cbc_mac_block; [apply H | apply zero_block_ok | apply H]. Qed.
Lemma removelast_forall {A} (P : A -> Prop) l : Forall P l -> Forall P (removelast l).
Proof. intros H. induction H as [|x l Hx H IH]; [constructor|]. cbn. destruct l; [constructor|]. now constructor. Qed.
Lemma core_prev_block m bl t : core m bl t -> block (m_cipher m) (m_prev_mac m).
Proof.
  intros H. rewrite (core_prev _ _ _ H). apply cbc_mac_block; [apply H | apply zero_block_ok |].
  destruct t; [apply removelast_forall|]; apply H.
Qed.

(** Fewer than a block pending: the exception, and no change. *)
Lemma update_short m d : co_ok (m_cipher m) -> len (m_iter_buf m ++ d) < bs (m_cipher m) ->
  mac_update (VBytes d) m = (Err IndexError, m).
Proof.
  intros Hc Hl. unfold mac_update, bindM, getM, mac_block_size. set (x := m_iter_buf m ++ d) in *.
  pose proof (len_nonneg x). pose proof (bs_pos (m_cipher m)).
  unfold _get_num_block. rewrite Z.div_small by lia. rewrite py_range_empty by lia. cbn [forM]. unfold retM.
  unfold _get_pad_size at 1. replace (len x <? bs (m_cipher m)) with true by lia.
  replace (bs (m_cipher m) - len x =? 0) with false by lia.
  unfold _get_pad_size. replace (len x <? bs (m_cipher m)) with true by lia.
  replace (len x - 2 * bs (m_cipher m) + (bs (m_cipher m) - len x)) with (- bs (m_cipher m)) by lia.
  replace (len x - bs (m_cipher m) + (bs (m_cipher m) - len x)) with 0 by lia.
  rewrite slice_to_0.
  rewrite add_xor_nil_r. unfold liftM. rewrite co_enc_short; [reflexivity | exact Hc | constructor | rewrite len_nil; lia].
Qed.

(** The counters of a cut. *)
Lemma cut_pad c data bl t : cut (bs c) data bl t -> bl <> [] ->
  _get_pad_size (bs c) data = match t with [] => 0 | _ => bs c - len t end /\ len data = bs c * len bl + len t.
Proof.
  intros (-> & HF & Ht) Hne. pose proof (concat_len _ _ HF) as HL. rewrite len_app, HL. split; [|reflexivity].
  pose proof (bs_pos c). pose proof (len_nonneg t). assert (1 <= len bl) by (destruct bl; [contradiction | rewrite len_cons; pose proof (len_nonneg bl); lia]).
  unfold _get_pad_size. rewrite len_app, HL. replace (bs c * len bl + len t <? bs c) with false by nia.
  replace ((bs c * len bl + len t) mod bs c) with (len t).
  2:{ rewrite Z.add_comm, Z.mul_comm, Z.mod_add by lia. symmetry. apply Z.mod_small. lia. }
  destruct t as [|x t]; [reflexivity|]. rewrite len_cons in *. pose proof (len_nonneg t). now replace (1 + len t =? 0) with false by lia.
Qed.

Lemma update_ok m bl t d : core m bl t -> bytes_ok d -> bs (m_cipher m) <= len (t ++ d) ->
  exists bl1 b t', t ++ d = concat (bl1 ++ [b]) ++ t' /\
    let m' := with_state m (b ++ t') t' (match t' with [] => cbc_mac (oE (m_cipher m)) (m_cur_mac m) bl1 | _ => cbc_mac (oE (m_cipher m)) (m_cur_mac m) (bl1 ++ [b]) end)
                (cbc_mac (oE (m_cipher m)) (m_cur_mac m) (bl1 ++ [b])) in
    mac_update (VBytes d) m = (Ok tt, m') /\ core m' (bl ++ bl1 ++ [b]) t'.
Proof.
  intros H Hd Hl. set (c := m_cipher m) in *. pose proof (bs_pos c) as Hpos.
  destruct (cut_exists (bs c) (t ++ d) Hpos) as (blx & t' & Hcut).
  assert (Hblx : blx <> []).
  { intros ->. destruct Hcut as (E & _ & Ht'). cbn in E. rewrite E in Hl. lia. }
  destruct (exists_last Hblx) as (bl1 & b & ->). exists bl1, b, t'.
  assert (Hcb : bytes_ok (t ++ d)) by (apply bytes_ok_app; split; [apply H | exact Hd]).
  destruct (cut_bytes _ _ _ _ Hcut Hcb) as [HF Ht'ok].
  assert (HF' := HF). apply Forall_app in HF' as [HF1 HFb]. apply Forall_inv in HFb.
  pose proof (core_cur_block m bl t H) as Hcur. pose proof (core_co m bl t H) as Hc.
  split; [apply Hcut|]. cbv zeta.
  assert (Hstep : mac_update (VBytes d) m = (Ok tt, with_state m (b ++ t') t' (match t' with [] => cbc_mac (oE (m_cipher m)) (m_cur_mac m) bl1 | _ => cbc_mac (oE (m_cipher m)) (m_cur_mac m) (bl1 ++ [b]) end)
                (cbc_mac (oE (m_cipher m)) (m_cur_mac m) (bl1 ++ [b])))).
  { unfold mac_update, bindM at 1, getM at 1. rewrite (core_iter _ _ _ H). set (x := t ++ d) in *. cbv zeta. unfold mac_block_size. fold c.
    unfold bindM at 1. rewrite (forM_map (_get_block (bs c) x) _ _ (fun b prev => liftM (co_encrypt c (add_xor prev b)))).
    rewrite (removelast_range (bs c) x bl1 t' b Hpos Hcut). rewrite mac_loop by (try exact Hc; try exact Hcur; exact HF1).
    destruct (cut_pad c x (bl1 ++ [b]) t' Hcut Hblx) as [Hpad Hlen]. rewrite Hpad.
    pose proof (cbc_mac_block c _ bl1 Hc Hcur HF1) as Hcv.
    assert (Hlb : len b = bs c) by apply HFb.
    assert (Hl1 : len (concat bl1) = bs c * len bl1) by (apply concat_len; apply blocks_lens; exact HF1).
    assert (Hx : x = concat bl1 ++ b ++ t') by (destruct Hcut as (-> & _ & _); rewrite concat_app; cbn [concat]; now rewrite app_nil_r, <- app_assoc).
    assert (Hn : _get_num_block (bs c) x - 1 = len bl1) by (rewrite (cut_num _ _ _ _ Hpos Hcut), len_app; unfold len; cbn; lia).
    rewrite Hn. rewrite len_app in Hlen. change (len [b]) with 1 in Hlen. pose proof (len_nonneg bl1). pose proof (len_nonneg t').
    assert (Hfin : py_from x (bs c * len bl1) = b ++ t').
    { rewrite py_from_skipn by nia. rewrite <- Hl1, Hx. unfold len. rewrite Nat2Z.id, skipn_app, Nat.sub_diag, skipn_all. reflexivity. }
    assert (Hmid : py_slice x (bs c * len bl1) (bs c * len bl1 + bs c) = b).
    { rewrite py_slice_mid by nia. replace (Z.to_nat (bs c * len bl1)) with (List.length (concat bl1)) by (unfold len in *; lia).
      rewrite Hx, skipn_app, Nat.sub_diag, skipn_all.
      cbn [app skipn]. replace (Z.to_nat (bs c * len bl1 + bs c - bs c * len bl1)) with (List.length b) by (unfold len in *; lia).
      now rewrite firstn_app, Nat.sub_diag, firstn_all, firstn_O, app_nil_r. }
    destruct (co_enc c (add_xor (cbc_mac (oE c) (m_cur_mac m) bl1) b) Hc (xor_block c _ _ Hcv HFb)) as [E1 E2].
    rewrite cbc_mac_snoc, bxor_eq, (add_xor_comm b). fold c in E1 |- *.
    destruct t' as [|z t'].
    - rewrite Z.eqb_refl. cbv beta iota. rewrite len_nil in Hlen.
      replace (len x - bs c) with (bs c * len bl1) by lia. replace (len x) with (bs c * len bl1 + bs c) by lia.
      rewrite Hfin, Hmid. unfold bindM, liftM. rewrite E1. reflexivity.
    - pose proof (proj2 (proj2 Hcut)) as Htl. set (tz := z :: t') in *. cbn match. replace (bs c - len tz =? 0) with false by lia. cbv beta iota.
      replace (len x - 2 * bs c + (bs c - len tz)) with (bs c * len bl1) by lia.
      replace (len x - bs c + (bs c - len tz)) with (bs c * len bl1 + bs c) by lia.
      rewrite Hfin, Hmid. unfold bindM, liftM. rewrite E1. unfold putM, with_state. fold c.
      assert (Hit : py_from x (bs c * len bl1 + bs c) = tz).
      { rewrite py_from_skipn by nia. rewrite <- Hl1, <- Hlb, <- len_app, Hx, app_assoc. unfold len. rewrite Nat2Z.id, skipn_app, Nat.sub_diag, skipn_all. reflexivity. }
      now rewrite Hit. }
  split; [exact Hstep|]. split; cbn [m_cipher m_iter_buf m_cur_mac m_prev_mac with_state].
  - exact Hc.
  - apply Forall_app. split; [apply H | exact HF].
  - exact Ht'ok.
  - apply Hcut.
  - intros E. apply app_eq_nil in E as [_ E]. now apply app_eq_nil in E as [_ E].
  - reflexivity.
  - rewrite (core_cur _ _ _ H). symmetry. apply cbc_mac_app.
  - rewrite (core_cur _ _ _ H). destruct t'.
    + rewrite app_assoc, removelast_last. symmetry. apply cbc_mac_app.
    + symmetry. apply cbc_mac_app.
Qed.
