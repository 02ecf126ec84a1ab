(** * MAC objects over call histories *)
From Verif Require Import PyBase PyFacts PyState Utils UtilsFacts CipherObj Modes Mac SpecNew.
From Verif Require Import SpecModes CipherLemmas CipherObjFacts ModeFacts ModeSpecFacts ModeLemmas ModeProps ModeSim ModeNew MacFacts MacFacts2.
Open Scope string_scope.
Open Scope list_scope.
Open Scope Z_scope.

(** ** Histories *)
Inductive mcall : Type :=
| MUpdate (d : pyval)
| MDigest (mac_size : Z)
| MFinal
| MClear.
Definition mcall_ok (c : mcall) : Prop := match c with MUpdate d => arg_ok d | _ => True end.

Definition mstep (c : mcall) (m : mac_obj) : res bytes * mac_obj :=
  match c with
  | MUpdate d => let (r, m') := mac_update d m in (let* _ := r in Ok [], m')
  | MDigest s => mac_digest s m
  | MFinal => mac_final m
  | MClear => let (r, m') := mac_clear m in (let* _ := r in Ok [], m')
  end.
Fixpoint mrun (cs : list mcall) (m : mac_obj) : list (res bytes) * mac_obj :=
  match cs with
  | [] => ([], m)
  | c :: cs' => let (r, m') := mstep c m in let (rs, m'') := mrun cs' m' in (r :: rs, m'')
  end.

(** A MAC object made by [new] from a key, with the message given to the constructor. *)
Definition mac_object (a : balg) (key data : bytes) (m : mac_obj) : Prop :=
  exists kw, kw_get (kw_data kw) (VBytes []) = VBytes data /\ new (alg a) (VBytes key) (VInt MODE_MAC) kw = Ok (NewMac m).
(** The same after any calls. *)
Definition mac_used (a : balg) (key : bytes) (m : mac_obj) : Prop :=
  exists data m0 cs, bytes_ok data /\ mac_object a key data m0 /\ Forall mcall_ok cs /\ m = snd (mrun cs m0).

(** ** The state *)
Record tracks (a : balg) (key msg : bytes) (m : mac_obj) : Prop := {
  tr_made : made a key (m_cipher m);
  tr_k1 : m_key_1 m = mac_key1 (spec_E a key) (bsize a);
  tr_k2 : m_key_2 m = mac_key2 (spec_E a key) (bsize a);
  tr_state : exists bl t, msg = concat bl ++ t /\ core m bl t /\ m_fin_buff m = fin_of bl t
}.

Lemma mac_init_empty a key : bytes_len 32 key ->
  exists m, mac_init (alg a) (VBytes key) (VBytes []) = Ok m /\ tracks a key [] m /\
    forall d, d <> VBytes [] -> mac_init (alg a) (VBytes key) d = match mac_update d m with (Ok _, m') => Ok m' | (Err e, _) => Err e end.
Proof.
  intros Hk. destruct (base_init_ok a key Hk) as (c & Hb & Hm). destruct Hm as (Hc & Ha & Hag).
  unfold mac_init. rewrite Hb. cbn [bind]. fold (zero_block c).
  destruct (co_enc c (zero_block c) Hc (zero_block_ok c)) as [-> _]. cbn [bind]. rewrite keys_ok by exact Hc. cbn [bind].
  eexists. split; [reflexivity|]. split.
  - assert (Hmade : made a key c) by (split; [exact Hc|]; split; [exact Ha | exact Hag]).
    destruct (keys_ext c (spec_E a key) (fun b Hb => proj1 (Hag b Hb))) as [K1 K2]. rewrite (made_nbs _ _ _ Hmade) in K1, K2.
    split; cbn [m_cipher m_key_1 m_key_2 m_fin_buff].
    + exact Hmade.
    + now rewrite (made_nbs _ _ _ Hmade).
    + now rewrite (made_nbs _ _ _ Hmade).
    + exists [], []. split; [reflexivity|]. split; [|reflexivity]. split; cbn [m_cipher m_iter_buf m_cur_mac m_prev_mac]; auto; try constructor. change (len (@nil Z)) with 0. apply bs_pos.
  - intros d Hd. destruct d as [[|x d]|s|z|]; try reflexivity. contradiction.
Qed.

Lemma new_mac_eq algorithm key kw : new algorithm key (VInt MODE_MAC) kw = (let* m := mac_init algorithm key (kw_get (kw_data kw) (VBytes [])) in Ok (NewMac m)).
Proof. reflexivity. Qed.

Lemma bsize_eq c a : co_alg c = a -> bs c = Z.of_nat (bsize a) /\ nbs c = bsize a.
Proof. intros <-. split; [apply bs_alg | apply nbs_alg]. Qed.

Lemma tracks_len a key msg m bl t : made a key (m_cipher m) -> msg = concat bl ++ t -> core m bl t -> len msg mod Z.of_nat (bsize a) = len t.
Proof.
  intros Hm -> H. rewrite <- (made_bs _ _ _ Hm). pose proof (core_tl _ _ _ H). pose proof (len_nonneg t). pose proof (bs_pos (m_cipher m)).
  rewrite len_app, (concat_len (bs (m_cipher m))) by (apply blocks_lens; apply H).
  rewrite Z.add_comm, Z.mul_comm, Z.mod_add by lia. apply Z.mod_small. lia.
Qed.

(** An update either is refused, exactly when less than a block is pending with it, or adds the data. *)
Lemma tracks_update a key msg m d : tracks a key msg m -> bytes_ok d ->
  if len msg mod Z.of_nat (bsize a) + len d <? Z.of_nat (bsize a)
  then mac_update (VBytes d) m = (Err IndexError, m)
  else exists m', mac_update (VBytes d) m = (Ok tt, m') /\ tracks a key (msg ++ d) m' /\ m_cipher m' = m_cipher m.
Proof.
  intros [Hm K1 K2 (bl & t & Hmsg & H & Hf)] Hd. rewrite (tracks_len a key msg m bl t Hm Hmsg H).
  rewrite <- (made_bs _ _ _ Hm). destruct (len t + len d <? bs (m_cipher m)) eqn:E.
  - apply update_short; [apply H|]. rewrite (core_iter _ _ _ H), len_app. lia.
  - destruct (update_ok m bl t d H Hd) as (bl1 & b & t' & E1 & E2 & E3); [rewrite len_app; lia|].
    eexists. split; [exact E2|]. split; [|reflexivity]. split; cbn [with_state m_cipher m_key_1 m_key_2 m_fin_buff]; auto.
    exists (bl ++ bl1 ++ [b]), t'. split; [|split; [exact E3|]].
    + rewrite Hmsg, <- app_assoc, E1, (concat_app bl), <- app_assoc. reflexivity.
    + unfold fin_of. now rewrite app_assoc, last_last.
Qed.

Lemma tracks_final a key msg m : tracks a key msg m ->
  mac_final m = (Ok (mac (spec_E a key) (bsize a) msg), snd (mac_final m)) /\
  exists bl t, msg = concat bl ++ t /\ core m bl t /\ m_fin_buff m = fin_of bl t /\
    snd (mac_final m) = with_state m (final_buff (m_cipher m) bl t) (m_iter_buf m) (m_prev_mac m) (m_cur_mac m).
Proof.
  intros [Hm K1 K2 (bl & t & Hmsg & H & Hf)]. assert (Hn := made_nbs _ _ _ Hm).
  assert (B1 : block (m_cipher m) (m_key_1 m)) by (rewrite K1, <- Hn; apply be_bytes_block).
  assert (B2 : block (m_cipher m) (m_key_2 m)) by (rewrite K2, <- Hn; apply be_bytes_block).
  pose proof (final_ok m bl t H Hf B1 B2) as HF. rewrite HF. cbn [snd]. split; [|exists bl, t; auto].
  do 2 f_equal. destruct Hm as (Hc & Ha & Hag).
  destruct (keys_ext (m_cipher m) (spec_E a key) (fun b Hb => proj1 (Hag b Hb))) as [K1' K2']. rewrite Hn in K1', K2'.
  rewrite K1, K2, <- K1', <- K2', <- Hn.
  rewrite <- mac_spec_eq by apply H. rewrite Hmsg.
  apply mac_ext; try apply H. intros b Hb. apply Hag, Hb.
Qed.

Lemma digest_eq a m s : co_alg (m_cipher m) = a -> mac_digest s m =
  if s >? Z.of_nat (bsize a) then (Err (GOSTCipherError "GOSTCipherError: invalid message authentication code size"), m)
  else (let* r := fst (mac_final m) in Ok (py_slice r 0 s), m).
Proof. intros Ha. unfold mac_digest, mac_block_size. rewrite (proj1 (bsize_eq _ _ Ha)). destruct (s >? _); [reflexivity|]. now destruct (mac_final m). Qed.

Lemma tracks_digest a key msg m s : tracks a key msg m -> 0 <= s <= Z.of_nat (bsize a) ->
  mac_digest s m = (Ok (firstn (Z.to_nat s) (mac (spec_E a key) (bsize a) msg)), m).
Proof.
  intros HT Hs. rewrite (digest_eq a) by apply HT. replace (s >? Z.of_nat (bsize a)) with false by lia.
  destruct (tracks_final a key msg m HT) as [E (bl & t & Hmsg & H & Hf & _)]. rewrite E. cbn [fst bind].
  assert (HL : len (mac (spec_E a key) (bsize a) msg) = Z.of_nat (bsize a)).
  { destruct HT as [Hm K1 K2 _]. rewrite <- (made_bs _ _ _ Hm). destruct Hm as (Hc & Ha & Hag).
    assert (Hn : nbs (m_cipher m) = bsize a) by (subst a; apply nbs_alg).
    rewrite <- Hn, Hmsg, <- mac_ext by (try apply H; intros b Hb; apply Hag, Hb). rewrite mac_spec_eq by apply H.
    pose proof (core_bl _ _ _ H) as HF. unfold final_value.
    assert (HB1 : forall bl', Forall (block (m_cipher m)) bl' -> block (m_cipher m) (cbc_mac (oE (m_cipher m)) (zero_block (m_cipher m)) bl')) by (intros; apply cbc_mac_block; auto using zero_block_ok).
    destruct t as [|z t]; [destruct bl as [|b0 bl0] eqn:Ebl; [|rewrite <- Ebl in *]|].
    - apply oE_block; [exact Hc|]. repeat apply bxor_block; [apply pad3_is_block; apply H | apply HB1; constructor | apply be_bytes_block].
    - apply oE_block; [exact Hc|]. repeat apply bxor_block; [|apply HB1; now apply removelast_forall | apply be_bytes_block].
      apply last_forall; [exact HF | rewrite Ebl; intro E0; inversion E0].
    - apply oE_block; [exact Hc|]. repeat apply bxor_block; [apply pad3_is_block; apply H | apply HB1; exact HF | apply be_bytes_block]. }
  now rewrite py_slice_0 by lia.
Qed.

(** ** Construction *)
Lemma new_mac_cases a key kw d : bytes_len 32 key -> kw_get (kw_data kw) (VBytes []) = VBytes d -> bytes_ok d ->
  if (0 <? len d) && (len d <? Z.of_nat (bsize a))
  then new (alg a) (VBytes key) (VInt MODE_MAC) kw = Err IndexError
  else exists m, new (alg a) (VBytes key) (VInt MODE_MAC) kw = Ok (NewMac m) /\ tracks a key d m.
Proof.
  intros Hk Hd Hok. rewrite new_mac_eq, Hd. destruct (mac_init_empty a key Hk) as (m & E1 & HT & E2).
  destruct d as [|x d].
  - change (len (@nil Z)) with 0. cbn [Z.ltb Z.compare andb]. exists m. rewrite E1. auto.
  - set (xd := x :: d) in *. assert (Hlen : 0 < len xd) by (unfold xd; rewrite len_cons; pose proof (len_nonneg d); lia).
    rewrite (proj2 (Z.ltb_lt _ _) Hlen). cbn [andb]. rewrite E2 by discriminate.
    pose proof (tracks_update a key [] m xd HT Hok) as HU. change (len (@nil Z)) with 0 in HU. rewrite Z.mod_0_l, Z.add_0_l in HU by (destruct a; discriminate).
    destruct (len xd <? Z.of_nat (bsize a)); [now rewrite HU|]. destruct HU as (m' & -> & HT' & _). exists m'. auto.
Qed.

Lemma new_mac_checks algorithm key kw : arg_ok key -> kw_ok kw ->
  match first_failure (conditions algorithm key (VInt MODE_MAC) kw) with
  | Some msg => new algorithm key (VInt MODE_MAC) kw = Err (GOSTCipherError msg)
  | None =>
      match kw_data kw with
      | Some (VBytes d) =>
          if (0 <? len d) && (len d <? block_bytes algorithm) then new algorithm key (VInt MODE_MAC) kw = Err IndexError
          else exists m, new algorithm key (VInt MODE_MAC) kw = Ok (NewMac m)
      | _ => exists m, new algorithm key (VInt MODE_MAC) kw = Ok (NewMac m)
      end
  end.
Proof.
  intros Hkey Hkw. unfold conditions.
  change (supported_mode (VInt MODE_MAC)) with true. cbn [first_failure].
  destruct (algorithm_cases algorithm) as [(a & -> & Ha)|[Ha Hb]].
  2:{ rewrite Ha. rewrite new_mac_eq. unfold mac_init. now rewrite Hb. }
  rewrite Ha. rewrite block_bytes_alg.
  destruct (base_init_key a key Hkey) as [(Hk & c & k & -> & Hl & Hbi & Hmd)|[Hk Hbi]]; rewrite Hk.
  2:{ rewrite new_mac_eq. unfold mac_init. now rewrite Hbi. }
  change (mode_is (VInt MODE_MAC) [1; 2]) with false. change (mode_is (VInt MODE_MAC) [2; 3; 5]) with false.
  change (mode_is (VInt MODE_MAC) [6]) with false. change (mode_is (VInt MODE_MAC) [255]) with true. cbn [negb orb first_failure].
  destruct (kw_data kw) as [v|] eqn:Ed.
  - cbn [absent_or]. destruct v as [d|s|z|]; cbn [bytes_of_length first_failure].
    + assert (Hd : kw_get (kw_data kw) (VBytes []) = VBytes d) by now rewrite Ed.
      assert (Hok : bytes_ok d) by (destruct Hkw as [_ Hkw]; now rewrite Ed in Hkw).
      pose proof (new_mac_cases a k kw d Hl Hd Hok) as HN. destruct (_ && _); [exact HN|]. destruct HN as (m & HN & _). now exists m.
    + rewrite new_mac_eq, Ed. cbn [kw_get]. destruct (mac_init_empty a k Hl) as (m & _ & HT & E2). rewrite E2 by discriminate.
      unfold mac_update, mac_clear, bindM, getM, liftM. destruct (co_clear_ok (m_cipher m)) as (c' & -> & _); [apply HT|]. reflexivity.
    + rewrite new_mac_eq, Ed. cbn [kw_get]. destruct (mac_init_empty a k Hl) as (m & _ & HT & E2). rewrite E2 by discriminate.
      unfold mac_update, mac_clear, bindM, getM, liftM. destruct (co_clear_ok (m_cipher m)) as (c' & -> & _); [apply HT|]. reflexivity.
    + rewrite new_mac_eq, Ed. cbn [kw_get]. destruct (mac_init_empty a k Hl) as (m & _ & HT & E2). rewrite E2 by discriminate.
      unfold mac_update, mac_clear, bindM, getM, liftM. destruct (co_clear_ok (m_cipher m)) as (c' & -> & _); [apply HT|]. reflexivity.
  - cbn [absent_or first_failure].
    assert (Hd : kw_get (kw_data kw) (VBytes []) = VBytes []) by now rewrite Ed.
    pose proof (new_mac_cases a k kw [] Hl Hd ltac:(constructor)) as HN. cbn in HN. destruct HN as (m & HN & _). now exists m.
Qed.
